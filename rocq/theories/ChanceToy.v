(** Another session key, other ids and another nonce for the sample device. *)
From Verif Require Import Lib Env Schnorr UiFlow App SpecTrace SpecTx SpecApdu SpecSign SpecRequest SpecStart SpecSeed SpecChance Toy.

(** Another session key, and a way of computing tags that gives the same tags with it. *)
Definition KEY2 : bytes := be_bytes 32 99.
Definition TAGS2 (_ m : bytes) : bytes := e_hmac toy TOY_KEY m.

(** The ids 7 and 9 exchanged. *)
Definition SWAP (i : N) : N := if i =? 7 then 9 else if i =? 9 then 7 else i.
Lemma swap_renames : renaming SWAP.
Proof.
  unfold renaming, SWAP. split; [reflexivity|]. split.
  - intros i j H. destruct (N.eqb_spec i 7), (N.eqb_spec j 7), (N.eqb_spec i 9), (N.eqb_spec j 9); subst; try lia.
  - intros i H. destruct (N.eqb_spec i 7), (N.eqb_spec i 9); lia.
Qed.

(** Another nonce, and the same id. *)
Definition RND2 : rnd := mk_rnd [be_bytes 32 5] [7].
Definition chance2 (e : event) : event := match e with Apdu cla ins p1 p2 data _ => Apdu cla ins p1 p2 data RND2 | e => e end.
Definition is_RND (r : rnd) : bool := match r_nonces r with [k] => bytes_eqb k (be_bytes 32 0xA1B2C3D4E5F60718293A) && bytes_eqb (r_ids r) [0; 7] | _ => false end.
Definition plain (e : event) : bool := match e with Apdu _ _ _ _ _ r => is_RND r | _ => true end.
Lemma is_RND_eq : forall r, is_RND r = true -> r = RND.
Proof.
  intros [[|k [|? ?]] ids] H; try discriminate. unfold is_RND in H. cbn [r_nonces r_ids] in H. apply andb_true_iff in H as [H1 H2].
  apply bytes_eqb_eq in H1, H2. unfold RND. rewrite H1, H2. reflexivity.
Qed.
Lemma one_usable : forall k ids, 0 < k < GROUP_ORDER -> nonce_drawn toy (mk_rnd [be_bytes 32 k] ids).
Proof.
  intros k ids K. exists (be_bytes 32 k). split; [left; reflexivity|].
  assert (V : be_value (be_bytes 32 k) = k).
  { apply be_value_be_bytes. change (N.of_nat 32) with 32. change (256 ^ 32) with 115792089237316195423570985008687907853269984665640564039457584007913129639936. unfold GROUP_ORDER in K. lia. }
  split; [rewrite V; split; [lia|apply N.lt_le_incl; apply K]|]. cbn [e_mulG toy]. rewrite V. unfold toy_point.
  rewrite N.mod_small by (unfold SECP256K1_N; unfold GROUP_ORDER in K; lia). destruct (N.eqb_spec k 0); [lia|]. eauto.
Qed.
Lemma chance2_other : forall evs, forallb plain evs = true -> Forall2 (other_chance toy) evs (map chance2 evs).
Proof.
  intros evs H. rewrite forallb_forall in H. induction evs as [|e evs IH]; [constructor|]. cbn [map]. constructor; [|apply IH; intros x Hx; apply H; right; exact Hx].
  specialize (H e (or_introl eq_refl)). destruct e; try reflexivity. unfold plain in H. apply is_RND_eq in H. subst.
  unfold other_chance, chance2. do 5 (split; [reflexivity|]). split; [reflexivity|]. intros _ _. split; intros _; apply one_usable; unfold GROUP_ORDER; lia.
Qed.
