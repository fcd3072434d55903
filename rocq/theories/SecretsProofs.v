(** The cryptographic helpers with failing primitives. *)
From Coq Require Import String.
From Verif Require Import Lib Env ErgoTree Schnorr SpecTree SpecSign Secrets SpecSecrets TreeProofs SignedProofs.

#[local] Arguments N.eqb : simpl never.
#[local] Arguments N.ltb : simpl never.
#[local] Arguments N.leb : simpl never.
#[local] Arguments N.add : simpl never.
#[local] Arguments N.mul : simpl never.
#[local] Arguments N.modulo : simpl never.
#[local] Arguments be_bytes : simpl never.
#[local] Arguments zeros : simpl never.

Lemma generator_eq : 0x04 :: SECP256K1_G = GENERATOR. Proof. vm_compute. reflexivity. Qed.
Lemma order_value : be_value ORDER_BYTES = GROUP_ORDER. Proof. vm_compute. reflexivity. Qed.
Lemma zeros_blank : forall n, blank (zeros n).
Proof. intro n. unfold zeros. apply Forall_forall. intros x Hx. apply repeat_spec in Hx. exact Hx. Qed.

(** ** Keys *)

Definition code_ok (c : N) : Prop := c <> 0 -> c mod 2 ^ 16 <> 0.
Lemma u16_zero : forall c, code_ok c -> u16 c = 0 -> c = 0.
Proof. intros c H Z. destruct (N.eq_dec c 0) as [|Hn]; [assumption|]. exfalso. apply (H Hn). exact Z. Qed.
Lemma derive_ok : forall E K p d0 d chain f, faithful E K -> derive_private_key K p d0 = (0, d, chain, f) ->
  e_derive E p = Some (d, chain) /\ wiped f [].
Proof.
  intros E K p d0 d chain f F H. unfold derive_private_key in H. destruct (k_derive K p) as [e [raw ch]] eqn:D.
  assert (Ce : code_ok e) by (intro; apply (fa_codes _ _ F); [left; exists p; rewrite D; reflexivity|assumption]).
  destruct (N.eqb_spec e 0) as [->|Hn]; cbn [negb] in H; [|exfalso; apply Hn, (u16_zero _ Ce); congruence].
  destruct (k_init_key K (firstn 32 raw)) as [e2 d2] eqn:I.
  assert (Ce2 : code_ok e2) by (intro; apply (fa_codes _ _ F); [right; left; exists (firstn 32 raw); rewrite I; reflexivity|assumption]).
  assert (e2 = 0) by (apply (u16_zero _ Ce2); congruence). subst e2.
  assert (d2 = d) by congruence. assert (ch = chain) by congruence. assert (Hf : [("raw_private_key"%string, zeros 64)] = f) by congruence. subst.
  split; [exact (fa_derive _ _ F _ _ _ _ D I)|]. constructor; [right; apply zeros_blank|constructor].
Qed.
Lemma private_ok : forall E K p out secret f, faithful E K -> generate_private_key K p out = (0, secret, f) ->
  (exists chain, e_derive E p = Some (secret, chain)) /\ wiped f [].
Proof.
  intros E K p out secret f F H. unfold generate_private_key in H. destruct (derive_private_key K p (zeros 32)) as [[[e d] chain] g] eqn:D.
  assert (e = 0) by congruence. subst e. change (0 =? 0) with true in H. cbv iota in H. assert (d = secret) by congruence. subst d.
  destruct (derive_ok _ _ _ _ _ _ _ F D) as [A W]. split; [eauto|]. assert (Hf : g ++ [("ecfp_private_key"%string, zeros 32); ("chain_code"%string, zeros 32)] = f) by congruence. subst f.
  apply Forall_app. split; [exact W|]. repeat (constructor; [right; apply zeros_blank|]). constructor.
Qed.
Lemma public_ok : forall E K p out own w chain f, faithful E K -> generate_public_key_k K p out own = (0, w, chain, f) ->
  (exists secret c, e_derive E p = Some (secret, c) /\ e_mulG E secret = Some w /\ (own = true -> chain = Some c) /\ (own = false -> chain = None)) /\ wiped f [].
Proof.
  intros E K p out own w chain f F H. unfold generate_public_key_k in H. destruct (derive_private_key K p (zeros 32)) as [[[e d] ch] g] eqn:D.
  destruct (N.eqb_spec e 0) as [->|Hn]; [|exfalso; apply Hn; congruence].
  unfold init_public_key in H. destruct (k_pair K d) as [e2 w2] eqn:P.
  assert (Ce2 : code_ok e2) by (intro; apply (fa_codes _ _ F); [right; right; exists d; rewrite P; reflexivity|assumption]).
  assert (e2 = 0) by (apply (u16_zero _ Ce2); congruence). subst e2. change (0 =? 0) with true in H. cbv iota in H.
  destruct (derive_ok _ _ _ _ _ _ _ F D) as [A W]. assert (w2 = w) by congruence. subst w2.
  split.
  - exists d, ch. split; [exact A|]. split; [exact (fa_pair _ _ F _ _ P)|]. destruct own; split; intro; congruence.
  - assert (Hf : g ++ ("private_key"%string, zeros 32) :: (if own then [] else [("temp_chain_code"%string, zeros 32)]) = f) by congruence. subst f.
    apply Forall_app. split; [exact W|]. constructor; [right; apply zeros_blank|]. destruct own; [constructor|]. constructor; [right; apply zeros_blank|constructor].
Qed.

(** What is left whatever the primitives do. *)
Lemma derive_left : forall K p d0 c d chain f, derive_private_key K p d0 = (c, d, chain, f) ->
  wiped f ["raw_private_key"%string] /\ (fst (k_derive K p) = 0 -> wiped f []) /\
  (fst (k_derive K p) <> 0 -> left_in f "raw_private_key" (fst (snd (k_derive K p)))).
Proof.
  intros K p d0 c d chain f H. unfold derive_private_key in H. destruct (k_derive K p) as [e [raw ch]] eqn:D. cbn [fst snd].
  destruct (N.eqb_spec e 0) as [->|Hn]; cbn [negb] in H.
  - destruct (k_init_key K (firstn 32 raw)) as [e2 d2]. assert (Hf : [("raw_private_key"%string, zeros 64)] = f) by congruence. subst f.
    split; [constructor; [left; left; reflexivity|constructor]|]. split; [|congruence]. intros _. constructor; [right; apply zeros_blank|constructor].
  - assert (Hf : [("raw_private_key"%string, raw)] = f) by congruence. subst f.
    split; [constructor; [left; left; reflexivity|constructor]|]. split; [congruence|]. intros _. left. reflexivity.
Qed.
Lemma wiped_app : forall f g x, wiped f x -> wiped g x -> wiped (f ++ g) x.
Proof. intros. apply Forall_app. split; assumption. Qed.
Lemma wiped_weak : forall f x y, incl x y -> wiped f x -> wiped f y.
Proof. intros f x y I H. eapply Forall_impl; [|exact H]. intros b [K|K]; [left; apply I; exact K|right; exact K]. Qed.
Lemma wiped_zeros : forall name n f x, wiped f x -> wiped ((name, zeros n) :: f) x.
Proof. intros. constructor; [right; apply zeros_blank|assumption]. Qed.
Lemma private_left : forall K p out c s f, generate_private_key K p out = (c, s, f) ->
  wiped f ["raw_private_key"%string] /\ (fst (k_derive K p) = 0 -> wiped f []) /\ (c <> 0 -> s = out) /\
  (fst (k_derive K p) <> 0 -> left_in f "raw_private_key" (fst (snd (k_derive K p)))).
Proof.
  intros K p out c s f H. unfold generate_private_key in H. destruct (derive_private_key K p (zeros 32)) as [[[e d] chain] g] eqn:D.
  destruct (derive_left _ _ _ _ _ _ _ D) as (A & B & L).
  assert (Hf : g ++ [("ecfp_private_key"%string, zeros 32); ("chain_code"%string, zeros 32)] = f) by congruence. subst f.
  split; [apply wiped_app; [exact A|repeat apply wiped_zeros; constructor]|].
  split; [intro Z; apply wiped_app; [exact (B Z)|repeat apply wiped_zeros; constructor]|].
  split; [|intro Z; apply in_or_app; left; exact (L Z)].
  intro Hc. assert (e = c) by congruence. subst e. destruct (N.eqb_spec c 0); [contradiction|congruence].
Qed.
Lemma public_left : forall K p out own c w chain f, generate_public_key_k K p out own = (c, w, chain, f) ->
  wiped f ["raw_private_key"%string] /\ (fst (k_derive K p) = 0 -> wiped f []).
Proof.
  intros K p out own c w chain f H. unfold generate_public_key_k in H. destruct (derive_private_key K p (zeros 32)) as [[[e d] ch] g] eqn:D.
  destruct (derive_left _ _ _ _ _ _ _ D) as (A & B & L).
  assert (Hf : g ++ ("private_key"%string, zeros 32) :: (if own then [] else [("temp_chain_code"%string, zeros 32)]) = f)
    by (destruct (if e =? 0 then _ else _); congruence). subst f.
  split; [apply wiped_app; [exact A|]|intro Z; apply wiped_app; [exact (B Z)|]]; apply wiped_zeros; (destruct own; [|apply wiped_zeros]); constructor.
Qed.

(** ** Signatures *)

Lemma refused_ok : forall E K k, faithful E K -> scalar_refused K k = false -> 0 < be_value k <= GROUP_ORDER.
Proof.
  intros E K k F H. unfold scalar_refused in H. destruct (k_cmp K k ORDER_BYTES) as [e z] eqn:C. rewrite !orb_false_iff in H. destruct H as (H1 & H2 & H3).
  apply N.eqb_neq in H1. apply negb_false_iff, N.eqb_eq in H2. subst e. apply Z.ltb_ge in H3.
  pose proof (fa_cmp _ _ F _ _ _ C) as X. rewrite order_value in X. destruct (N.ltb_spec GROUP_ORDER (be_value k)) as [L|L]; [|lia]. apply X in L. lia.
Qed.
Lemma point_ok : forall E K k w, env_ok E -> faithful E K -> point_of K k = Some w -> exists raw, e_mulG E k = Some raw /\ w = compressed raw.
Proof.
  intros E K k w Henv F H. unfold point_of in H. rewrite generator_eq in H. destruct (k_mul K GENERATOR k) as [e raw] eqn:M.
  destruct (N.eqb_spec e 0) as [->|]; [|discriminate]. pose proof (fa_mul _ _ F _ _ M) as X. exists raw. split; [exact X|].
  rewrite <- compress_spec by (eapply ok_mulG_len; eauto). congruence.
Qed.
Lemma update_ok : forall E K h x h', faithful E K -> update K h x = Some h' -> h' = h ++ x.
Proof.
  intros E K h x h' F H. unfold update in H. destruct (k_hash_update K h x) as [e h2] eqn:U. destruct (N.eqb_spec e 0) as [->|]; [|discriminate].
  apply (fa_update _ _ F) in U. congruence.
Qed.
Lemma round_ok : forall E K secret nonce key h key', env_ok E -> faithful E K -> sign_round K secret nonce key = (Some h, key') ->
  key' = nonce /\ 0 < be_value secret <= GROUP_ORDER /\ 0 < be_value nonce <= GROUP_ORDER /\
  exists pk w, e_mulG E secret = Some pk /\ e_mulG E nonce = Some w /\ h = commitment (compressed pk) (compressed w).
Proof.
  intros E K secret nonce key h key' Henv F H. unfold sign_round in H. destruct (k_hash_init K) as [e0 h0] eqn:I0. cbn [fst snd] in H. destruct (N.eqb_spec e0 0) as [->|]; cbn [negb] in H; [|discriminate].
  apply (fa_init _ _ F) in I0. subst h0. destruct (update K [] SCHNORR_PREFIX) as [h1|] eqn:U1; [|discriminate]. destruct (scalar_refused K secret) eqn:R1; [discriminate|].
  destruct (point_of K secret) as [pk|] eqn:P1; [|discriminate]. destruct (update K h1 pk) as [h2|] eqn:U2; [|discriminate].
  destruct (update K h2 SCHNORR_SUFFIX) as [h3|] eqn:U3; [|discriminate]. destruct (scalar_refused K nonce) eqn:R2; [discriminate|].
  destruct (point_of K nonce) as [w|] eqn:P2; [|discriminate]. destruct (update K h3 w) as [h4|] eqn:U4; [|discriminate].
  assert (h4 = h) by congruence. assert (nonce = key') by congruence. subst h4 key'. split; [reflexivity|].
  split; [eapply refused_ok; eassumption|]. split; [eapply refused_ok; eassumption|].
  destruct (point_ok _ _ _ _ Henv F P1) as (pk' & M1 & ->), (point_ok _ _ _ _ Henv F P2) as (w' & M2 & ->). exists pk', w'. split; [exact M1|]. split; [exact M2|].
  apply (update_ok _ _ _ _ _ F) in U1, U2, U3, U4. subst. unfold commitment. cbn [List.app]. rewrite <- !app_assoc. reflexivity.
Qed.
Lemma hd_firstn_in : forall A (z x : A) k l, x = hd z l -> l <> [] -> In x (firstn (S k) l).
Proof. intros A z x k [|y l] -> H; [congruence|left; reflexivity]. Qed.
Lemma loop_ok : forall E Ks secret rounds i nonces key h key', env_ok E -> (forall i, faithful E (Ks i)) ->
  sign_init_loop Ks secret rounds i nonces key = (Some h, key') ->
  In key' (firstn rounds nonces) /\ 0 < be_value secret <= GROUP_ORDER /\ 0 < be_value key' <= GROUP_ORDER /\
  exists pk w, e_mulG E secret = Some pk /\ e_mulG E key' = Some w /\ h = commitment (compressed pk) (compressed w).
Proof.
  intros E Ks secret rounds. induction rounds as [|k IH]; intros i nonces key h key' Henv F H; [discriminate|].
  cbn [sign_init_loop] in H. destruct (sign_round (Ks i) secret (hd (zeros 32) nonces) key) as [[h1|] key1] eqn:R.
  - assert (h1 = h) by congruence. assert (key1 = key') by congruence. subst.
    destruct (round_ok _ _ _ _ _ _ _ Henv (F i) R) as (X & B1 & B2 & pk & w & M1 & M2 & Hh). subst key'.
    destruct nonces as [|n nonces]; [exfalso; cbn [hd] in B2; vm_compute in B2; destruct B2; discriminate|]. cbn [hd] in *.
    split; [left; reflexivity|]. split; [exact B1|]. split; [exact B2|]. eauto.
  - destruct (IH _ _ _ _ _ Henv F H) as (I & X). split; [|exact X]. destruct nonces as [|n nonces]; [|right; exact I].
    cbn [tl] in I. destruct k; destruct I.
Qed.
Lemma start_ok : forall E K Ks p nonces key junk h key' f, env_ok E -> faithful E K -> (forall i, faithful E (Ks i)) ->
  start_secrets K Ks p nonces key junk = (Some h, key', f) ->
  wiped f [] /\ In key' (firstn 100 nonces) /\
  exists secret chain pk w, e_derive E p = Some (secret, chain) /\ 0 < be_value secret <= GROUP_ORDER /\ 0 < be_value key' <= GROUP_ORDER /\
    e_mulG E secret = Some pk /\ e_mulG E key' = Some w /\ h = commitment (compressed pk) (compressed w).
Proof.
  intros E K Ks p nonces key junk h key' f Henv F Fs H. unfold start_secrets in H. destruct (generate_private_key K p junk) as [[e secret] g] eqn:G.
  destruct (N.eqb_spec e 0) as [->|]; cbn [negb] in H; [|discriminate]. destruct (private_ok _ _ _ _ _ _ F G) as [[chain D] W].
  unfold sign_init in H. destruct (sign_init_loop Ks secret MAX_ITERATIONS 0 nonces key) as [[h1|] key1] eqn:L; [|discriminate].
  assert (h1 = h) by congruence. assert (key1 = key') by congruence. assert (Hf : g ++ [("buf"%string, zeros 65)] ++ [("secret"%string, zeros 32)] = f) by congruence. subst.
  destruct (loop_ok _ _ _ _ _ _ _ _ _ Henv Fs L) as (I & B1 & B2 & pk & w & M1 & M2 & ->).
  split; [apply wiped_app; [exact W|repeat apply wiped_zeros; constructor]|]. split; [exact I|]. exists secret, chain, pk, w. auto 10.
Qed.
Lemma start_left : forall K Ks p nonces key junk r key' f, start_secrets K Ks p nonces key junk = (r, key', f) ->
  wiped f ["raw_private_key"%string] /\ (fst (k_derive K p) = 0 -> wiped f []) /\ (r = None -> key' = key \/ blank key').
Proof.
  intros K Ks p nonces key junk r key' f H. unfold start_secrets in H. destruct (generate_private_key K p junk) as [[e secret] g] eqn:G.
  destruct (private_left _ _ _ _ _ _ G) as (A & B & _). destruct (N.eqb_spec e 0) as [->|Hn]; cbn [negb] in H.
  - unfold sign_init in H. destruct (sign_init_loop Ks secret MAX_ITERATIONS 0 nonces key) as [r1 key1] eqn:L.
    assert (Hf : g ++ [("buf"%string, zeros 65)] ++ [("secret"%string, zeros 32)] = f) by congruence. subst f.
    split; [apply wiped_app; [exact A|repeat apply wiped_zeros; constructor]|]. split; [intro Z; apply wiped_app; [exact (B Z)|repeat apply wiped_zeros; constructor]|].
    intros ->. assert (r1 = None) by congruence. subst r1. right. replace key' with (zeros 32) by congruence. apply zeros_blank.
  - assert (Hf : g ++ [("secret"%string, zeros 32)] = f) by congruence. subst f.
    split; [apply wiped_app; [exact A|repeat apply wiped_zeros; constructor]|]. split; [intro Z; apply wiped_app; [exact (B Z)|repeat apply wiped_zeros; constructor]|].
    intros _. left. congruence.
Qed.

Lemma value_zeros : forall n l, be_value (zeros n ++ l) = be_value l.
Proof.
  intros n l. unfold be_value, zeros. rewrite fold_left_app. f_equal. induction n as [|n IH]; [reflexivity|]. cbn [repeat fold_left]. exact IH.
Qed.
Lemma finish_sign_ok : forall E K hash secret key junk sig0 sig f, env_ok E -> faithful E K -> length sig0 = 56%nat ->
  sign_finish K hash secret key junk sig0 = (true, sig, f) ->
  wiped f [] /\ schnorr_sign_finish E hash secret key = Some sig.
Proof.
  intros E K hash secret key junk sig0 sig f Henv F L H. unfold sign_finish in H. destruct (k_hash_final K hash) as [e h] eqn:Fi.
  destruct (N.eqb_spec e 0) as [->|]; cbn [negb] in H; [|discriminate]. pose proof (fa_final _ _ F _ _ Fi) as ->.
  rewrite value_zeros in H. unfold schnorr_sign_finish. cbv zeta. destruct (N.eqb_spec (be_value (firstn 24 (e_blake E hash))) 0) as [|Hc]; [discriminate|].
  destruct (k_multm K (zeros 8 ++ firstn 24 (e_blake E hash)) secret ORDER_BYTES) as [e1 m] eqn:M.
  destruct (N.eqb_spec e1 0) as [->|]; cbn [negb] in H; [|discriminate].
  destruct (k_addm K key m ORDER_BYTES) as [e2 z] eqn:A. destruct (N.eqb_spec e2 0) as [->|]; cbn [negb] in H; [|discriminate].
  apply (fa_multm _ _ F) in M. apply (fa_addm _ _ F) in A. rewrite order_value, value_zeros in M. rewrite order_value in A.
  assert (Hf : [("buf"%string, zeros 65)] = f) by congruence. subst f. split; [apply wiped_zeros; constructor|].
  assert (Hs : firstn 24 (e_blake E hash ++ skipn 32 sig0) ++ z = sig) by congruence. rewrite <- Hs. change SECP256K1_N with GROUP_ORDER.
  rewrite firstn_app. rewrite (ok_blake_len _ Henv). cbn [Nat.sub]. rewrite firstn_O, app_nil_r, A, M. rewrite be_value_be_bytes; [reflexivity|].
  eapply N.lt_trans; [apply N.mod_lt; discriminate|]. vm_compute. reflexivity.
Qed.
Lemma finish_ok : forall E K p hash key junk junk' sig0 sig key' f, env_ok E -> faithful E K -> length sig0 = 56%nat ->
  finish_secrets K p hash key junk junk' sig0 = (Some sig, key', f) ->
  wiped f [] /\ exists secret chain, e_derive E p = Some (secret, chain) /\ schnorr_sign_finish E hash secret key = Some sig.
Proof.
  intros E K p hash key junk junk' sig0 sig key' f Henv F L H. unfold finish_secrets in H. destruct (generate_private_key K p junk) as [[e secret] g] eqn:G.
  destruct (N.eqb_spec e 0) as [->|]; cbn [negb] in H; [|discriminate]. destruct (private_ok _ _ _ _ _ _ F G) as [[chain D] W].
  destruct (sign_finish K hash secret key junk' sig0) as [[ok sig1] g1] eqn:S1. destruct ok; [|discriminate]. assert (sig1 = sig) by congruence. subst sig1.
  assert (Hf : g ++ g1 ++ [("secret"%string, zeros 32)] = f) by congruence. subst f.
  destruct (finish_sign_ok _ _ _ _ _ _ _ _ _ Henv F L S1) as [W1 X]. split; [|eauto].
  apply wiped_app; [exact W|]. apply wiped_app; [exact W1|]. apply wiped_zeros. constructor.
Qed.
Lemma signature_ok : forall E K Ks K' p nonces key junk h key1 f msg junk1 junk2 sig0 sig key2 g,
  env_ok E -> faithful E K -> (forall i, faithful E (Ks i)) -> faithful E K' -> length sig0 = 56%nat ->
  start_secrets K Ks p nonces key junk = (Some h, key1, f) ->
  finish_secrets K' p (h ++ msg) key1 junk1 junk2 sig0 = (Some sig, key2, g) ->
  In key1 nonces /\ 0 < be_value key1 <= GROUP_ORDER /\ (exists secret chain, e_derive E p = Some (secret, chain) /\ schnorr E secret key1 msg sig) /\ wiped (f ++ g) [] /\ blank key2.
Proof.
  intros E K Ks K' p nonces key junk h key1 f msg junk1 junk2 sig0 sig key2 g Henv F Fs F' L H1 H2.
  destruct (start_ok _ _ _ _ _ _ _ _ _ _ Henv F Fs H1) as (W1 & I & secret & chain & pk & w & D & B1 & B2 & M1 & M2 & Hh).
  destruct (finish_ok _ _ _ _ _ _ _ _ _ _ _ Henv F' L H2) as (W2 & secret' & chain' & D' & X).
  rewrite D in D'. assert (secret' = secret) by congruence. subst secret'.
  split; [rewrite <- (firstn_skipn 100 nonces); apply in_or_app; left; exact I|]. split; [exact B2|]. split; [|split; [apply wiped_app; assumption|]].
  - exists secret, chain. split; [exact D|]. exists pk, w. split; [exact M1|]. split; [exact M2|]. cbv zeta. unfold challenge. rewrite <- Hh.
    unfold schnorr_sign_finish in X. cbv zeta in X. destruct (be_value (firstn 24 (e_blake E (h ++ msg))) =? 0); [discriminate|].
    change SECP256K1_N with GROUP_ORDER in X. rewrite N.add_mod_idemp_r in X by discriminate. congruence.
  - unfold finish_secrets in H2. destruct (generate_private_key K' p junk1) as [[e s2] g2]. destruct (e =? 0); cbn [negb] in H2; [|discriminate].
    destruct (sign_finish K' (h ++ msg) s2 key1 junk2 sig0) as [[ok ?] ?]. replace key2 with (zeros 32) by congruence. apply zeros_blank.
Qed.

(** What the final step leaves behind, whatever the primitives do. *)
Lemma sign_finish_left : forall K hash secret key junk sig0 ok sig f, sign_finish K hash secret key junk sig0 = (ok, sig, f) ->
  (ok = true -> wiped f []) /\
  exists b, f = [("buf"%string, b)] /\
    (blank b \/ b = junk \/
     (let x := zeros 8 ++ firstn 24 (snd (k_hash_final K hash)) in
      b = x ++ skipn 32 junk \/
      b = snd (k_multm K x secret ORDER_BYTES) ++ skipn 32 junk)).
Proof.
  intros K hash secret key junk sig0 ok sig f H. unfold sign_finish in H. destruct (k_hash_final K hash) as [e h]. cbn [snd].
  destruct (negb (e =? 0)); [split; [congruence|]; exists junk; split; [congruence|auto]|].
  destruct (be_value (zeros 8 ++ firstn 24 h) =? 0); [split; [congruence|]; exists ((zeros 8 ++ firstn 24 h) ++ skipn 32 junk); split; [congruence|cbv zeta; auto]|].
  destruct (k_multm K (zeros 8 ++ firstn 24 h) secret ORDER_BYTES) as [e1 m] eqn:M.
  destruct (negb (e1 =? 0)); [split; [congruence|]; exists (m ++ skipn 32 junk); split; [congruence|cbv zeta; cbn [snd]; auto]|].
  destruct (k_addm K key m ORDER_BYTES) as [e2 z].
  destruct (negb (e2 =? 0)); [split; [congruence|]; exists (m ++ skipn 32 junk); split; [congruence|cbv zeta; cbn [snd]; auto]|].
  assert (Hf : [("buf"%string, zeros 65)] = f) by congruence. subst f. split; [intros _; apply wiped_zeros; constructor|].
  exists (zeros 65). split; [reflexivity|]. left. apply zeros_blank.
Qed.

Lemma finish_left : forall K p hash key junk junk' sig0 r key' f, finish_secrets K p hash key junk junk' sig0 = (r, key', f) ->
  blank key' /\ (r <> None -> fst (k_derive K p) = 0 -> wiped f []) /\
  (fst (k_derive K p) = 0 -> wiped f ["secret"%string; "buf"%string]) /\
  wiped f ["raw_private_key"%string; "secret"%string; "buf"%string] /\
  (forall s, left_in f "secret" s -> blank s \/ s = junk) /\
  (forall b, left_in f "buf" b -> blank b \/ b = junk' \/
     (let x := zeros 8 ++ firstn 24 (snd (k_hash_final K hash)) in
      b = x ++ skipn 32 junk' \/ exists secret, b = snd (k_multm K x secret ORDER_BYTES) ++ skipn 32 junk')).
Proof.
  intros K p hash key junk junk' sig0 r key' f H. unfold finish_secrets in H. destruct (generate_private_key K p junk) as [[e secret] g] eqn:G.
  destruct (private_left _ _ _ _ _ _ G) as (A & B & C & _).
  assert (Ng : forall name x, In (name, x) g -> name = "raw_private_key"%string \/ name = "ecfp_private_key"%string \/ name = "chain_code"%string).
  { unfold generate_private_key, derive_private_key in G. destruct (k_derive K p) as [e0 [raw ch]]. destruct (negb (e0 =? 0)); [|destruct (k_init_key K (firstn 32 raw)) as [e2 d2]];
    intros name x I.
    - assert (Hg : [("raw_private_key"%string, raw)] ++ [("ecfp_private_key"%string, zeros 32); ("chain_code"%string, zeros 32)] = g) by congruence.
      rewrite <- Hg in I. destruct I as [I|[I|[I|[]]]]; apply (f_equal fst) in I; cbn [fst] in I; auto.
    - assert (Hg : [("raw_private_key"%string, zeros 64)] ++ [("ecfp_private_key"%string, zeros 32); ("chain_code"%string, zeros 32)] = g) by congruence.
      rewrite <- Hg in I. destruct I as [I|[I|[I|[]]]]; apply (f_equal fst) in I; cbn [fst] in I; auto. }
  assert (Ns : forall x, ~ In ("secret"%string, x) g) by (intros x I; destruct (Ng _ _ I) as [X|[X|X]]; discriminate).
  assert (Nb : forall x, ~ In ("buf"%string, x) g) by (intros x I; destruct (Ng _ _ I) as [X|[X|X]]; discriminate).
  destruct (N.eqb_spec e 0) as [->|Hn]; cbn [negb] in H.
  - destruct (sign_finish K hash secret key junk' sig0) as [[ok sig1] g1] eqn:S1.
    destruct (sign_finish_left _ _ _ _ _ _ _ _ _ S1) as (W1 & b & -> & Hb).
    assert (Hf : g ++ [("buf"%string, b)] ++ [("secret"%string, zeros 32)] = f) by congruence. subst f.
    assert (Hw : forall x, In "buf"%string x -> wiped g x -> wiped (g ++ [("buf"%string, b)] ++ [("secret"%string, zeros 32)]) x).
    { intros x I W. apply wiped_app; [exact W|]. constructor; [left; exact I|]. apply wiped_zeros. constructor. }
    split; [replace key' with (zeros 32) by congruence; apply zeros_blank|].
    split; [intros Hr Z; apply wiped_app; [exact (B Z)|]; apply wiped_app; [apply W1; destruct ok; congruence|apply wiped_zeros; constructor]|].
    split; [intro Z; apply Hw; [right; left; reflexivity|eapply wiped_weak; [|exact (B Z)]; intros ? []]|].
    split; [apply Hw; [right; right; left; reflexivity|eapply wiped_weak; [|exact A]; intros ? [<-|[]]; left; reflexivity]|].
    split; [intros s I; apply in_app_or in I; destruct I as [I|[I|[I|[]]]]; [destruct (Ns _ I)|discriminate|]; left; apply (f_equal snd) in I; cbn [snd] in I; subst s; apply zeros_blank|].
    intros b' I. apply in_app_or in I. destruct I as [I|[I|[I|[]]]]; [destruct (Nb _ I)| |discriminate]. apply (f_equal snd) in I. cbn [snd] in I. subst b'.
    destruct Hb as [Hb|[Hb|[Hb|Hb]]]; cbv zeta in *; eauto 6.
  - assert (Hf : g ++ [("secret"%string, secret)] = f) by congruence. subst f.
    assert (Hw : forall x, In "secret"%string x -> wiped g x -> wiped (g ++ [("secret"%string, secret)]) x).
    { intros x I W. apply wiped_app; [exact W|]. constructor; [left; exact I|]. constructor. }
    split; [replace key' with (zeros 32) by congruence; apply zeros_blank|]. split; [congruence|].
    split; [intro Z; apply Hw; [left; reflexivity|eapply wiped_weak; [|exact (B Z)]; intros ? []]|].
    split; [apply Hw; [right; left; reflexivity|eapply wiped_weak; [|exact A]; intros ? [<-|[]]; left; reflexivity]|].
    split; [intros s I; apply in_app_or in I; destruct I as [I|[I|[]]]; [destruct (Ns _ I)|]; right; apply (f_equal snd) in I; cbn [snd] in I; rewrite <- I; apply C; exact Hn|].
    intros b' I. apply in_app_or in I. destruct I as [I|[I|[]]]; [destruct (Nb _ I)|discriminate].
Qed.

(** ** With primitives that do not fail: the functions of the main model *)

Lemma pair_eta : forall A B (x : A * B) a, fst x = a -> x = (a, snd x).
Proof. intros A B [u v] a <-. reflexivity. Qed.
Lemma derive_ideal : forall E K p d0 secret chain, faithful E K -> unfailing E K -> e_derive E p = Some (secret, chain) ->
  exists f, derive_private_key K p d0 = (0, secret, chain, f).
Proof.
  intros E K p d0 secret chain F U D. unfold derive_private_key. assert (X : fst (k_derive K p) = 0) by (apply (un_derive _ _ U); congruence).
  destruct (k_derive K p) as [e [raw ch]] eqn:Q. cbn [fst] in X. subst e. change (negb (0 =? 0)) with false. cbv iota.
  assert (Y := un_init _ _ U (firstn 32 raw)). destruct (k_init_key K (firstn 32 raw)) as [e2 d2] eqn:I. cbn [fst] in Y. subst e2.
  pose proof (fa_derive _ _ F _ _ _ _ Q I) as Z. rewrite D in Z. assert (d2 = secret) by congruence. assert (ch = chain) by congruence. subst. eauto.
Qed.
Lemma refused_ideal : forall E K k, faithful E K -> unfailing E K -> scalar_refused K k = scalar_rejected k.
Proof.
  intros E K k F U. unfold scalar_refused, scalar_rejected. assert (Y := un_cmp _ _ U k ORDER_BYTES). destruct (k_cmp K k ORDER_BYTES) as [e z] eqn:C. cbn [fst] in Y. subst e.
  change (negb (0 =? 0)) with false. cbn [orb]. f_equal. pose proof (fa_cmp _ _ F _ _ _ C) as X. rewrite order_value in X. change SECP256K1_N with GROUP_ORDER.
  destruct (Z.ltb_spec 0 z); destruct (N.ltb_spec GROUP_ORDER (be_value k)); try reflexivity; [apply X in H|apply X in H0]; lia.
Qed.
Lemma point_ideal : forall E K k, faithful E K -> unfailing E K -> point_of K k = option_map compress (e_mulG E k).
Proof.
  intros E K k F U. unfold point_of. rewrite generator_eq. destruct (e_mulG E k) as [v|] eqn:V; destruct (k_mul K GENERATOR k) as [e w] eqn:M.
  - assert (Y : fst (k_mul K GENERATOR k) = 0) by (apply (un_mul _ _ U); congruence). rewrite M in Y. cbn [fst] in Y. subst e.
    pose proof (fa_mul _ _ F _ _ M). cbn [option_map]. change (0 =? 0) with true. cbv iota. congruence.
  - destruct (N.eqb_spec e 0) as [->|]; [|reflexivity]. pose proof (fa_mul _ _ F _ _ M). congruence.
Qed.
Lemma update_ideal : forall E K h x, faithful E K -> unfailing E K -> update K h x = Some (h ++ x).
Proof.
  intros E K h x F U. unfold update. destruct (un_hash _ _ U) as (_ & Y & _). specialize (Y h x). destruct (k_hash_update K h x) as [e h'] eqn:Q. cbn [fst] in Y. subst e.
  apply (fa_update _ _ F) in Q. subst h'. reflexivity.
Qed.
Lemma round_ideal : forall E K secret nonce key, faithful E K -> unfailing E K ->
  fst (sign_round K secret nonce key) = option_map fst (schnorr_round E secret nonce) /\
  (schnorr_round E secret nonce <> None -> option_map snd (schnorr_round E secret nonce) = Some (snd (sign_round K secret nonce key))).
Proof.
  intros E K secret nonce key F U. unfold sign_round, schnorr_round. destruct (un_hash _ _ U) as (Y & _ & _). destruct (k_hash_init K) as [e0 h0] eqn:I0. cbn [fst snd] in *. subst e0. apply (fa_init _ _ F) in I0. subst h0.
  change (negb (0 =? 0)) with false. cbv iota. rewrite (update_ideal E) by assumption. rewrite (refused_ideal E), (point_ideal E) by assumption. destruct (scalar_rejected secret); [split; [reflexivity|congruence]|].
  destruct (e_mulG E secret) as [pk|]; cbn [option_map]; [|split; [reflexivity|congruence]]. rewrite !(update_ideal E) by assumption.
  rewrite (refused_ideal E), (point_ideal E) by assumption. destruct (scalar_rejected nonce); [split; [reflexivity|congruence]|].
  destruct (e_mulG E nonce) as [w|]; cbn [option_map]; [|split; [reflexivity|congruence]]. rewrite !(update_ideal E) by assumption.
  split; [|intros _; reflexivity]. cbn [fst]. f_equal. rewrite !app_assoc. reflexivity.
Qed.
Lemma loop_ideal : forall E K secret rounds i nonces key, faithful E K -> unfailing E K ->
  match schnorr_init_loop E secret rounds nonces with
  | Some (h, k) => sign_init_loop (fun _ => K) secret rounds i nonces key = (Some h, k)
  | None => fst (sign_init_loop (fun _ => K) secret rounds i nonces key) = None
  end.
Proof.
  intros E K secret rounds. induction rounds as [|n IH]; intros i nonces key F U; [reflexivity|].
  cbn [schnorr_init_loop sign_init_loop]. change (repeat 0 32) with (zeros 32). destruct (round_ideal E K secret (hd (zeros 32) nonces) key F U) as [A B].
  destruct (sign_round K secret (hd (zeros 32) nonces) key) as [r k1] eqn:R. cbn [fst snd] in A, B.
  destruct (schnorr_round E secret (hd (zeros 32) nonces)) as [[h k]|] eqn:Q; cbn [option_map fst snd] in A, B.
  - subst r. assert (Some k = Some k1) by (apply B; discriminate). congruence.
  - subst r. apply IH; assumption.
Qed.
Lemma start_ideal : forall E K p nonces key junk secret chain, faithful E K -> unfailing E K -> e_derive E p = Some (secret, chain) ->
  match schnorr_sign_init E secret nonces with
  | Some (h, k) => exists f, start_secrets K (fun _ => K) p nonces key junk = (Some h, k, f)
  | None => exists k f, start_secrets K (fun _ => K) p nonces key junk = (None, k, f)
  end.
Proof.
  intros E K p nonces key junk secret chain F U D. destruct (derive_ideal E K p (zeros 32) _ _ F U D) as (f & X).
  unfold start_secrets, generate_private_key. rewrite X. change (0 =? 0) with true. cbn [negb]. unfold sign_init, schnorr_sign_init.
  pose proof (loop_ideal E K secret MAX_ITERATIONS 0 nonces key F U) as L. destruct (schnorr_init_loop E secret MAX_ITERATIONS nonces) as [[h k]|].
  - rewrite L. eauto.
  - destruct (sign_init_loop (fun _ => K) secret MAX_ITERATIONS 0 nonces key) as [r k1]. cbn [fst] in L. subst r. eauto.
Qed.
Lemma finish_ideal : forall E K p hash key junk junk' sig0 secret chain, env_ok E -> faithful E K -> unfailing E K -> e_derive E p = Some (secret, chain) ->
  exists f, finish_secrets K p hash key junk junk' sig0 = (schnorr_sign_finish E hash secret key, zeros 32, f).
Proof.
  intros E K p hash key junk junk' sig0 secret chain Henv F U D. destruct (derive_ideal E K p (zeros 32) _ _ F U D) as (f & X).
  unfold finish_secrets, generate_private_key. rewrite X. change (0 =? 0) with true. cbn [negb]. unfold sign_finish, schnorr_sign_finish. cbv zeta.
  destruct (un_hash _ _ U) as (_ & _ & Y). specialize (Y hash). destruct (k_hash_final K hash) as [e h] eqn:Fi. cbn [fst] in Y. subst e.
  change (negb (0 =? 0)) with false. cbv iota. pose proof (fa_final _ _ F _ _ Fi) as ->. rewrite value_zeros.
  destruct (be_value (firstn 24 (e_blake E hash)) =? 0); [eexists; reflexivity|].
  destruct (un_math _ _ U (zeros 8 ++ firstn 24 (e_blake E hash)) secret ORDER_BYTES) as [Y1 _].
  destruct (k_multm K (zeros 8 ++ firstn 24 (e_blake E hash)) secret ORDER_BYTES) as [e1 m] eqn:M. cbn [fst] in Y1. subst e1. change (negb (0 =? 0)) with false. cbv iota.
  destruct (un_math _ _ U key m ORDER_BYTES) as [_ Y2]. destruct (k_addm K key m ORDER_BYTES) as [e2 z] eqn:A. cbn [fst] in Y2. subst e2. change (negb (0 =? 0)) with false. cbv iota.
  apply (fa_multm _ _ F) in M. apply (fa_addm _ _ F) in A. rewrite order_value, value_zeros in M. rewrite order_value in A.
  eexists. change SECP256K1_N with GROUP_ORDER. do 3 f_equal.
  rewrite firstn_app. rewrite (ok_blake_len _ Henv). cbn [Nat.sub]. rewrite firstn_O, app_nil_r, A, M. rewrite be_value_be_bytes; [reflexivity|].
  eapply N.lt_trans; [apply N.mod_lt; discriminate|]. vm_compute. reflexivity.
Qed.
Lemma public_ideal : forall E K p out own secret chain w, faithful E K -> unfailing E K -> e_derive E p = Some (secret, chain) -> e_mulG E secret = Some w ->
  exists f, generate_public_key_k K p out own = (0, w, if own then Some chain else None, f).
Proof.
  intros E K p out own secret chain w F U D M. destruct (derive_ideal E K p (zeros 32) _ _ F U D) as (f & X).
  unfold generate_public_key_k, init_public_key. rewrite X. change (0 =? 0) with true. cbv iota.
  assert (Y : fst (k_pair K secret) = 0) by (apply (un_pair _ _ U); congruence). destruct (k_pair K secret) as [e v] eqn:P. cbn [fst] in Y. subst e.
  pose proof (fa_pair _ _ F _ _ P). assert (v = w) by congruence. subst v. change (u16 0) with 0. change (0 =? 0) with true. cbv iota. eauto.
Qed.

(** ** What is left behind in the failing cases *)

(** The primitives computed from an environment, with the given failures. *)
Definition sdk_of (E : env) (derive_fails add_fails : bool) : sdk :=
  mk_sdk (fun p => match e_derive E p with Some (d, c) => (if derive_fails then 1 else 0, (d ++ zeros 32, c)) | None => (1, (zeros 64, zeros 32)) end)
         (fun r => (0, r))
         (fun d => match e_mulG E d with Some w => (0, w) | None => (1, zeros 65) end)
         (0, []) (fun h x => (0, h ++ x)) (fun h => (0, e_blake E h))
         (fun a b => (0, (Z.of_N (be_value a) - Z.of_N (be_value b))%Z))
         (fun _ k => match e_mulG E k with Some w => (0, w) | None => (1, zeros 65) end)
         (fun a b n => (0, be_bytes 32 ((be_value a * be_value b) mod be_value n)))
         (fun a b n => (if add_fails then 1 else 0, be_bytes 32 ((be_value a + be_value b) mod be_value n))).
Lemma sdk_of_faithful : forall E d a, env_ok E -> faithful E (sdk_of E d a).
Proof.
  intros E d a Henv. constructor; cbn [sdk_of k_derive k_init_key k_pair k_hash_init k_hash_update k_hash_final k_cmp k_mul k_multm k_addm].
  - intros p raw chain x H I. destruct (e_derive E p) as [[y c]|] eqn:D; [|discriminate]. assert (Hr : y ++ zeros 32 = raw) by (destruct d; congruence).
    assert (c = chain) by (destruct d; congruence). subst. assert (Hx : firstn 32 (y ++ zeros 32) = x) by congruence. subst x.
    destruct (ok_derive_len _ Henv _ _ _ D) as (Ly & _). rewrite firstn_app, firstn_all2, Ly by lia. cbn [Nat.sub]. rewrite firstn_O, app_nil_r. reflexivity.
  - intros x w H. destruct (e_mulG E x); congruence.
  - intros h H. congruence.
  - intros h x h' H. congruence.
  - intros h x H. congruence.
  - intros x y z H. assert (z = (Z.of_N (be_value x) - Z.of_N (be_value y))%Z) by congruence. subst z. lia.
  - intros k w H. destruct (e_mulG E k); congruence.
  - intros x y n z H. congruence.
  - intros x y n z H. congruence.
  - intros c [[p ->]|[[r ->]|[x ->]]] H; [destruct (e_derive E p) as [[? ?]|]; [destruct d|]|cbn [fst] in H; congruence|destruct (e_mulG E x)]; cbn [fst] in *; try congruence; vm_compute; discriminate.
Qed.
Lemma sdk_of_unfailing : forall E, unfailing E (sdk_of E false false).
Proof.
  intro E. constructor; cbn [sdk_of k_derive k_init_key k_pair k_hash_init k_hash_update k_hash_final k_cmp k_mul k_multm k_addm]; try (intros; split; reflexivity); try (intros; reflexivity).
  - intros p H. destruct (e_derive E p) as [[? ?]|]; [reflexivity|congruence].
  - intros d H. destruct (e_mulG E d); [reflexivity|congruence].
  - split; [reflexivity|]. split; intros; reflexivity.
  - intros k H. destruct (e_mulG E k); [reflexivity|congruence].
Qed.
Lemma mod_inverse : forall n u c s, n <> 0 -> (u * c) mod n = 1 -> (u * ((c * s) mod n)) mod n = s mod n.
Proof.
  intros n u c s Hn H. rewrite N.mul_mod_idemp_r by assumption. rewrite N.mul_assoc. rewrite <- N.mul_mod_idemp_l by assumption. rewrite H, N.mul_1_l. reflexivity.
Qed.
Lemma product_left : forall E p hash key junk junk' sig0 secret chain, env_ok E -> e_derive E p = Some (secret, chain) ->
  be_value (firstn 24 (e_blake E hash)) <> 0 ->
  exists K key' f product, faithful E K /\ finish_secrets K p hash key junk junk' sig0 = (None, key', f) /\
    left_in f "buf" (product ++ skipn 32 junk') /\ length product = 32%nat /\
    forall u, (u * be_value (firstn 24 (e_blake E hash))) mod GROUP_ORDER = 1 -> (u * be_value product) mod GROUP_ORDER = be_value secret mod GROUP_ORDER.
Proof.
  intros E p hash key junk junk' sig0 secret chain Henv D Hc. set (c := firstn 24 (e_blake E hash)) in *.
  exists (sdk_of E false true), (zeros 32), ([("raw_private_key"%string, zeros 64); ("ecfp_private_key"%string, zeros 32); ("chain_code"%string, zeros 32);
    ("buf"%string, be_bytes 32 ((be_value c * be_value secret) mod GROUP_ORDER) ++ skipn 32 junk'); ("secret"%string, zeros 32)]),
    (be_bytes 32 ((be_value c * be_value secret) mod GROUP_ORDER)).
  split; [apply sdk_of_faithful; exact Henv|]. split; [|split; [|split]].
  - unfold finish_secrets, generate_private_key, derive_private_key, sign_finish.
    cbn [sdk_of k_derive k_init_key k_hash_final k_multm k_addm]. rewrite D. change (negb (0 =? 0)) with false. cbv iota.
    assert (Hd : firstn 32 (secret ++ zeros 32) = secret).
    { destruct (ok_derive_len _ Henv _ _ _ D) as (Ly & _). rewrite firstn_app, firstn_all2, Ly by lia. cbn [Nat.sub]. rewrite firstn_O, app_nil_r. reflexivity. }
    rewrite Hd. change (u16 0) with 0. change (0 =? 0) with true. cbn [negb]. fold c. rewrite value_zeros.
    destruct (N.eqb_spec (be_value c) 0) as [|_]; [contradiction|]. change (0 =? 0) with true. change (1 =? 0) with false. cbn [negb]. rewrite order_value. reflexivity.
  - right. right. right. left. reflexivity.
  - apply be_bytes_length.
  - intros u Hu. rewrite be_value_be_bytes.
    + apply mod_inverse; [discriminate|exact Hu].
    + eapply N.lt_trans; [apply N.mod_lt; discriminate|]. vm_compute. reflexivity.
Qed.
Lemma raw_left : forall E p nonces key junk secret chain, env_ok E -> e_derive E p = Some (secret, chain) ->
  exists K Ks key' f, faithful E K /\ (forall i, faithful E (Ks i)) /\ start_secrets K Ks p nonces key junk = (None, key', f) /\
    left_in f "raw_private_key" (secret ++ zeros 32).
Proof.
  intros E p nonces key junk secret chain Henv D. exists (sdk_of E true false), (fun _ => sdk_of E true false).
  unfold start_secrets, generate_private_key, derive_private_key. cbn [sdk_of k_derive]. rewrite D. change (u16 1) with 1. change (1 =? 0) with false. cbn [negb].
  do 2 eexists. split; [apply sdk_of_faithful; exact Henv|]. split; [intros _; apply sdk_of_faithful; exact Henv|]. split; [reflexivity|]. left. reflexivity.
Qed.
(** An error code whose low 16 bits are zero. *)
Lemma code_lost : forall p out, exists K f, fst (k_derive K p) <> 0 /\ generate_private_key K p out = (0, zeros 32, f).
Proof.
  intros p out. exists (mk_sdk (fun _ => (65536, (zeros 64, zeros 32))) (fun r => (0, r)) (fun _ => (0, zeros 65))
    (0, []) (fun h x => (0, h ++ x)) (fun h => (0, zeros 32)) (fun _ _ => (0, 0%Z)) (fun _ _ => (0, zeros 65)) (fun _ _ _ => (0, zeros 32)) (fun _ _ _ => (0, zeros 32))).
  eexists. split; [discriminate|]. reflexivity.
Qed.
(** Two draws, the first unusable. *)
Definition TWO : list bytes := [zeros 32; be_bytes 32 12345].
