(** A second seed for the sample device. *)
From Verif Require Import Lib Env Schnorr UiFlow App SpecTrace SpecTx SpecApdu SpecSign SpecRequest SpecStart SpecSeed Toy.

(** Another seed for the sample device. *)
Definition OTHER (p : list N) : option (bytes * bytes) := Some (be_bytes 32 (toy_key p + 1), toy_hash (be_bytes 8 (toy_key p + 1))).
Lemma other_ok : env_ok (with_seed toy OTHER).
Proof.
  destruct toy_ok as [A1 A2 A3 A4 A5 A6 A7]. constructor; try assumption. intros p s c H. cbn [e_derive with_seed] in H. unfold OTHER in H.
  apply (f_equal (fun x => match x with Some y => y | None => (s, c) end)) in H.
  pose proof (f_equal fst H) as H1. pose proof (f_equal snd H) as H2. cbn [fst snd] in H1, H2. rewrite <- H1, <- H2.
  split; [apply be_bytes_length|]. split; [apply toy_hash_len|]. split; [apply be_bytes_ok|apply toy_hash_ok].
Qed.
Lemma toy_usable : forall k, 0 < k <= two64 + 1 -> usable toy (be_bytes 32 k).
Proof.
  intros k K. unfold two64 in K.
  assert (V : be_value (be_bytes 32 k) = k) by (apply be_value_be_bytes; change (N.of_nat 32) with 32; change (256 ^ 32) with 115792089237316195423570985008687907853269984665640564039457584007913129639936; lia).
  split; [rewrite V; unfold GROUP_ORDER; lia|]. cbn [e_mulG toy]. rewrite V. unfold toy_point.
  rewrite N.mod_small by (unfold SECP256K1_N; lia). destruct (N.eqb_spec k 0); [lia|]. eauto.
Qed.
Lemma key_range : forall p, 0 < toy_key p <= two64.
Proof. intro p. unfold toy_key. pose proof (N.mod_lt (fold_left (fun acc x => acc * two32 + x) p 0) two64). unfold two64 in *. lia. Qed.
Lemma usable_seed : forall E D k, usable E k -> usable (with_seed E D) k.
Proof. intros E D k H. exact H. Qed.
Lemma mulG_seed : forall E D k, e_mulG (with_seed E D) k = e_mulG E k.
Proof. reflexivity. Qed.
Lemma other_paths : same_paths toy (with_seed toy OTHER).
Proof.
  intro p. pose proof (key_range p) as K.
  assert (U1 : usable toy (be_bytes 32 (toy_key p))) by (apply toy_usable; lia).
  assert (U2 : usable toy (be_bytes 32 (toy_key p + 1))) by (apply toy_usable; lia). split.
  - destruct U1 as [_ [w W]], U2 as [_ [w2 W2]]. split; intros _.
    + exists (SpecTree.compressed w2), (toy_hash (be_bytes 8 (toy_key p + 1))), (be_bytes 32 (toy_key p + 1)), w2. split; [reflexivity|]. split; [rewrite mulG_seed; exact W2|reflexivity].
    + exists (SpecTree.compressed w), (toy_hash (be_bytes 8 (toy_key p))), (be_bytes 32 (toy_key p)), w. split; [reflexivity|]. split; [exact W|reflexivity].
  - split; intros _.
    + exists (be_bytes 32 (toy_key p + 1)), (toy_hash (be_bytes 8 (toy_key p + 1))). split; [reflexivity|exact (usable_seed _ _ _ U2)].
    + exists (be_bytes 32 (toy_key p)), (toy_hash (be_bytes 8 (toy_key p))). split; [reflexivity|exact U1].
Qed.
