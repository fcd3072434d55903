(** Proofs about the VLQ and ZigZag codecs and the checked arithmetic. *)
From Verif Require Import Lib SpecVlq SafeInt Zigzag Gve.

Lemma land_127 : forall n, N.land n 127 = n mod 128.
Proof. intro. change 127 with (N.ones 7). rewrite N.land_ones. reflexivity. Qed.
Lemma shiftr_7 : forall n, N.shiftr n 7 = n / 128.
Proof. intro. rewrite N.shiftr_div_pow2. reflexivity. Qed.
Lemma lor_add : forall a b k, a < 2 ^ k -> N.lor a (b * 2 ^ k) = a + b * 2 ^ k.
Proof.
  intros a b k H. rewrite N.add_nocarry_lxor.
  - rewrite N.lxor_lor; [reflexivity|].
    apply N.bits_inj. intro i. rewrite N.land_spec, N.bits_0, <- N.shiftl_mul_pow2.
    destruct (N.ltb_spec i k).
    + rewrite (N.shiftl_spec_low b k i) by assumption. apply andb_false_r.
    + assert (N.testbit a i = false) as ->; [|reflexivity].
      rewrite <- (N.mod_small a (2 ^ k)) by assumption. apply N.mod_pow2_bits_high. assumption.
  - apply N.bits_inj. intro i. rewrite N.land_spec, N.bits_0, <- N.shiftl_mul_pow2.
    destruct (N.ltb_spec i k).
    + rewrite (N.shiftl_spec_low b k i) by assumption. apply andb_false_r.
    + assert (N.testbit a i = false) as ->; [|reflexivity].
      rewrite <- (N.mod_small a (2 ^ k)) by assumption. apply N.mod_pow2_bits_high. assumption.
Qed.
Lemma lor_128 : forall b, b < 128 -> N.lor b 128 = b + 128.
Proof. intros. change 128 with (1 * 2 ^ 7). apply lor_add. assumption. Qed.
Lemma land_128 : forall b, N.land b 128 = (b / 128 mod 2) * 128.
Proof.
  intro b. change 128 with (2 ^ 7) at 1. 
  apply N.bits_inj. intro i. rewrite N.land_spec.
  change 128 with (2 ^ 7).
  rewrite <- N.shiftr_div_pow2, <- N.shiftl_mul_pow2.
  rewrite N.pow2_bits_eqb.
  destruct (N.eqb_spec 7 i) as [<-|H].
  - rewrite andb_true_r. rewrite N.shiftl_spec_high by lia. replace (7 - 7) with 0 by reflexivity.
    change 2 with (2 ^ 1) at 1. rewrite N.mod_pow2_bits_low by lia. rewrite N.shiftr_spec by lia.
    reflexivity.
  - rewrite andb_false_r. symmetry. destruct (N.ltb_spec i 7).
    + apply N.shiftl_spec_low. assumption.
    + rewrite N.shiftl_spec_high by lia. change 2 with (2 ^ 1). apply N.mod_pow2_bits_high. lia.
Qed.

Lemma is_vlq_fun : forall n l, is_vlq n l -> forall l', is_vlq n l' -> l = l'.
Proof.
  induction 1; intros l' H'; inv H'; try lia; try reflexivity. f_equal. auto.
Qed.
Lemma vlq_aux_spec : forall fuel n, n < 2 ^ N.of_nat fuel -> is_vlq n (vlq_aux fuel n).
Proof.
  induction fuel; intros n H; simpl.
  - cbn in H. constructor. lia.
  - destruct (N.ltb_spec n 128); constructor; try assumption.
    apply IHfuel. apply N.div_lt_upper_bound; [lia|].
    replace (N.of_nat (S fuel)) with (N.succ (N.of_nat fuel)) in H by lia.
    rewrite N.pow_succ_r in H by lia. lia.
Qed.
Lemma vlq_spec : forall n, is_vlq n (vlq n).
Proof.
  intro n. apply vlq_aux_spec.
  destruct n as [|p]; [cbn; lia|].
  pose proof (N.size_gt (N.pos p)). 
  replace (N.of_nat (N.size_nat (N.pos p))) with (N.size (N.pos p)); [assumption|].
  simpl. clear. induction p; simpl; try lia.
Qed.

(** The encoder. *)
Lemma gve_put_loop_vlq : forall fuel n l, gve_put_loop fuel n = Some l -> is_vlq n l.
Proof.
  induction fuel; intros n l H; cbn [gve_put_loop] in H; [discriminate|].
  rewrite land_127, shiftr_7 in H.
  destruct (N.eqb_spec (n / 128) 0) as [E|E].
  - inv H. assert (n < 128) by lia. rewrite N.mod_small by assumption. constructor. assumption.
  - destruct (gve_put_loop fuel (n / 128)) as [t|] eqn:Ht; [|discriminate]. inv H.
    rewrite lor_128 by lia. constructor; [lia|]. auto.
Qed.
Lemma gve_put_loop_some : forall fuel n, n < 128 ^ N.of_nat (S fuel) ->
  exists l, gve_put_loop (S fuel) n = Some l /\ (1 <= length l <= S fuel)%nat /\
            (128 ^ N.of_nat (length l - 1) <= n \/ length l = 1%nat) /\ n < 128 ^ N.of_nat (length l).
Proof.
  induction fuel; intros n H; cbn [gve_put_loop]; rewrite land_127, shiftr_7.
  - cbn in H. destruct (N.eqb_spec (n / 128) 0) as [E|E]; [|lia].
    exists [n mod 128]. simpl. split; [reflexivity|]. split; [lia|]. split; [lia|]. cbn. lia.
  - destruct (N.eqb_spec (n / 128) 0) as [E|E].
    + exists [n mod 128]. simpl. split; [reflexivity|]. split; [lia|]. split; [lia|]. cbn. lia.
    + destruct (IHfuel (n / 128)) as (t & Ht & Hl & Hlo & Hhi).
      { apply N.div_lt_upper_bound; [lia|].
        replace (N.of_nat (S (S fuel))) with (N.succ (N.of_nat (S fuel))) in H by lia.
        rewrite N.pow_succ_r in H by lia. exact H. }
      cbn [gve_put_loop] in Ht. cbv zeta in *. rewrite Ht.
      eexists. split; [reflexivity|]. cbn [length]. split; [lia|]. split.
      * left. replace (S (length t) - 1)%nat with (length t) by lia.
        destruct Hlo as [Hlo|Hlo].
        -- replace (N.of_nat (length t)) with (N.succ (N.of_nat (length t - 1))) by lia.
           rewrite N.pow_succ_r by lia. lia.
        -- rewrite Hlo. cbn. lia.
      * replace (N.of_nat (S (length t))) with (N.succ (N.of_nat (length t))) by lia.
        rewrite N.pow_succ_r by lia. lia.
Qed.
Lemma pow_128_10 : two64 < 128 ^ N.of_nat 10.
Proof. vm_compute. reflexivity. Qed.

Lemma gve_put_u64_facts : forall n, n < two64 ->
  is_vlq n (gve_put_u64 n) /\ (1 <= length (gve_put_u64 n) <= 10)%nat /\
  (128 ^ N.of_nat (length (gve_put_u64 n) - 1) <= n \/ length (gve_put_u64 n) = 1%nat) /\
  n < 128 ^ N.of_nat (length (gve_put_u64 n)) /\
  gve_put_u64_opt n = Some (gve_put_u64 n).
Proof.
  intros n H. unfold gve_put_u64, gve_put_u64_opt.
  destruct (gve_put_loop_some 9 n) as (l & Hl & Hlen & Hlo & Hhi).
  { pose proof pow_128_10. lia. }
  rewrite Hl. split; [eapply gve_put_loop_vlq; eassumption|]. auto.
Qed.
Lemma gve_put_u64_vlq : forall n, n < two64 -> gve_put_u64 n = vlq n.
Proof.
  intros. eapply is_vlq_fun; [apply gve_put_u64_facts; assumption | apply vlq_spec].
Qed.
Lemma is_vlq_bytes_ok : forall n l, is_vlq n l -> bytes_ok l = true.
Proof.
  induction 1; apply bytes_ok_cons; split; auto; lia.
Qed.
Lemma gve_put_bytes_ok : forall n, n < two64 -> bytes_ok (gve_put_u64 n) = true.
Proof. intros. eapply is_vlq_bytes_ok. apply gve_put_u64_facts. assumption. Qed.

(** The decoder. *)
Lemma get_step_value : forall val b k, val < 2 ^ k ->
  N.lor val (u64 (N.shiftl (N.land b 127) k)) = val + u64 ((b mod 128) * 2 ^ k) \/ 64 <= k.
Proof.
  intros val b k H. destruct (N.ltb_spec k 64); [left|right; assumption].
  rewrite land_127, N.shiftl_mul_pow2. unfold u64.
  replace two64 with (2 ^ (64 - k) * 2 ^ k).
  - rewrite N.mul_mod_distr_r by (apply N.pow_nonzero; lia).
    rewrite lor_add by assumption. reflexivity.
  - rewrite <- N.pow_add_r. replace (64 - k + k) with 64 by lia. reflexivity.
Qed.
Lemma get_step_value' : forall val b k, val < 2 ^ k -> k < 64 ->
  N.lor val (u64 (N.shiftl (N.land b 127) k)) = val + u64 ((b mod 128) * 2 ^ k).
Proof. intros. destruct (get_step_value val b k); [assumption | assumption | lia]. Qed.

Lemma get_loop_vlq : forall l n, is_vlq n l -> forall fuel val k rest,
  val < 2 ^ k -> k = 7 * (10 - N.of_nat fuel) -> (fuel <= 10)%nat ->
  val + n * 2 ^ k < two64 ->
  gve_get_loop fuel k val (l ++ rest) = GveOk (val + n * 2 ^ k) rest \/ fuel = O.
Proof.
  induction 1 as [n Hn|n l Hn Hl IH]; intros fuel val k rest Hval Hk Hfuel Hb;
    (destruct fuel as [|fuel]; [right; reflexivity|left]).
  - cbn [app gve_get_loop]. rewrite read_u8_cons. cbv zeta.
    rewrite get_step_value' by lia. rewrite land_128.
    replace (n / 128) with 0 by lia. cbn [N.modulo N.div_eucl]. simpl (0 mod 2 * 128 =? 0).
    unfold u64. rewrite (N.mod_small n 128) by assumption.
    rewrite N.mod_small; [reflexivity|]. lia.
  - cbn [app gve_get_loop]. rewrite read_u8_cons. cbv zeta.
    rewrite get_step_value' by lia. rewrite land_128.
    replace ((n mod 128 + 128) / 128) with 1 by lia.
    replace ((n mod 128 + 128) mod 128) with (n mod 128) by lia.
    simpl (1 mod 2 * 128 =? 0).
    assert (Hp : 2 ^ (k + 7) = 128 * 2 ^ k) by (rewrite N.pow_add_r; lia).
    assert (Hsplit : n * 2 ^ k = n mod 128 * 2 ^ k + n / 128 * 2 ^ (k + 7)).
    { rewrite Hp. pose proof (N.div_mod n 128). nia. }
    assert (Hsmall : u64 (n mod 128 * 2 ^ k) = n mod 128 * 2 ^ k).
    { unfold u64. apply N.mod_small. lia. }
    rewrite Hsmall.
    destruct (IH fuel (val + n mod 128 * 2 ^ k) (k + 7) rest) as [E|E].
    + rewrite Hp. assert (n mod 128 < 128) by lia. nia.
    + lia.
    + lia.
    + lia.
    + rewrite E. f_equal. lia.
    + exfalso. subst fuel. assert (k = 63) by lia. subst k.
      change (2 ^ (7 * (10 - N.of_nat 1))) with 9223372036854775808 in Hb.
      unfold two64 in Hb. lia.
Qed.
Lemma gve_get_put : forall n rest, n < two64 ->
  gve_get_u64 (gve_put_u64 n ++ rest) = GveOk n rest.
Proof.
  intros n rest H. unfold gve_get_u64.
  destruct (get_loop_vlq (gve_put_u64 n) n) with (fuel := 10%nat) (val := 0) (k := 0) (rest := rest) as [E|E].
  - apply gve_put_u64_facts. assumption.
  - cbn. lia.
  - reflexivity.
  - lia.
  - cbn. lia.
  - rewrite E. f_equal. cbn. lia.
  - discriminate.
Qed.

Lemma get_loop_bound : forall fuel val k l v r,
  val < 2 ^ k -> k = 7 * (10 - N.of_nat fuel) -> (fuel <= 10)%nat -> bytes_ok l = true ->
  val < two64 ->
  gve_get_loop fuel k val l = GveOk v r ->
  v < two64 /\ exists pre, l = pre ++ r /\ (length pre <= fuel)%nat /\
    (fuel <> O -> (1 <= length pre)%nat) /\ v < 2 ^ (k + 7 * N.of_nat (length pre)) .
Proof.
  induction fuel; intros val k l v r Hval Hk Hf Hl H64 H; cbn [gve_get_loop] in H.
  - inv H. split; [assumption|]. exists []. repeat split; try reflexivity; try lia.
    simpl length. replace (7 * (10 - N.of_nat 0) + 7 * N.of_nat 0) with (7 * (10 - N.of_nat 0)) by lia.
    assumption.
  - destruct l as [|b l]; [rewrite read_u8_nil in H; discriminate|].
    rewrite read_u8_cons in H. cbv zeta in H. apply bytes_ok_cons in Hl as [Hb Hl].
    rewrite get_step_value' in H by lia.
    assert (Hp : 2 ^ (k + 7) = 128 * 2 ^ k) by (rewrite N.pow_add_r; lia).
    assert (Hadd : val + u64 (b mod 128 * 2 ^ k) < 2 ^ (k + 7)).
    { assert (u64 (b mod 128 * 2 ^ k) <= b mod 128 * 2 ^ k) by (apply N.mod_le; discriminate).
      rewrite Hp. assert (b mod 128 < 128) by lia. nia. }
    assert (Hadd64 : val + u64 (b mod 128 * 2 ^ k) < two64).
    { unfold u64. replace two64 with (2 ^ (64 - k) * 2 ^ k).
      - rewrite N.mul_mod_distr_r by (apply N.pow_nonzero; lia).
        assert ((b mod 128) mod 2 ^ (64 - k) < 2 ^ (64 - k))
          by (apply N.mod_lt; apply N.pow_nonzero; lia). nia.
      - rewrite <- N.pow_add_r. replace (64 - k + k) with 64 by lia. reflexivity. }
    destruct (N.land b 128 =? 0).
    + inv H. split; [assumption|]. exists [b]. simpl. repeat split; try reflexivity; try lia. assumption.
    + eapply IHfuel in H; try lia; try assumption.
      destruct H as (Hv & pre & -> & Hpre & _ & Hv').
      split; [assumption|]. exists (b :: pre). cbn [length]. repeat split; try reflexivity; try lia.
      replace (k + 7 * N.of_nat (S (length pre))) with (k + 7 + 7 * N.of_nat (length pre)) by lia.
      assumption.
Qed.
Lemma gve_get_bound : forall l v r, bytes_ok l = true -> gve_get_u64 l = GveOk v r ->
  v < two64 /\ exists pre, l = pre ++ r /\ (1 <= length pre <= 10)%nat /\ v < 128 ^ N.of_nat (length pre).
Proof.
  intros l v r Hl H. unfold gve_get_u64 in H.
  apply get_loop_bound in H; try assumption; try reflexivity; try (cbn; lia).
  destruct H as (Hv & pre & -> & Hp & Hp1 & Hv'). split; [assumption|].
  exists pre. repeat split; try lia. change 128 with (2 ^ 7). rewrite <- N.pow_mul_r. exact Hv'.
Qed.
Lemma gve_get_minimal : forall l v pre r, bytes_ok (pre ++ r) = true ->
  l = pre ++ r -> gve_get_u64 l = GveOk v r -> (length (gve_put_u64 v) <= length pre)%nat.
Proof.
  intros l v pre r Hok -> H. pose proof H as H0. apply gve_get_bound in H; [|assumption].
  destruct H as (Hv & pre' & E & Hl & Hb).
  apply app_inv_tail in E. subst pre'.
  destruct (gve_put_u64_facts v Hv) as (_ & Hlen & [Hlo|Hlo] & Hhi & _); [|lia].
  assert (128 ^ N.of_nat (length (gve_put_u64 v) - 1) < 128 ^ N.of_nat (length pre)) as Hlt by lia.
  apply N.pow_lt_mono_r_iff in Hlt; lia.
Qed.
(** Failure happens exactly on fewer than ten bytes all of which announce more. *)
Lemma get_loop_fail : forall fuel val k l, bytes_ok l = true ->
  (forall e, gve_get_loop fuel k val l = GveErr e -> e = GVE_ERR_DATA_SIZE) /\
  ((exists e, gve_get_loop fuel k val l = GveErr e) <->
   (length l < fuel)%nat /\ forall b, In b l -> 128 <= b).
Proof.
  induction fuel; intros val k l Hl; cbn [gve_get_loop].
  - split; [discriminate|]. split; [intros [e H]; discriminate | lia].
  - destruct l as [|b l].
    + rewrite read_u8_nil. split; [congruence|]. split; intros _; [split; [simpl; lia|simpl; tauto]|eauto].
    + rewrite read_u8_cons. apply bytes_ok_cons in Hl as [Hb Hl]. cbv zeta. rewrite land_128.
      destruct (N.ltb_spec b 128).
      * replace (b / 128) with 0 by lia. simpl (0 mod 2 * 128 =? 0). split; [discriminate|].
        split; [intros [e E]; discriminate|]. intros [_ H0]. specialize (H0 b (or_introl eq_refl)). lia.
      * replace (b / 128) with 1 by lia. simpl (1 mod 2 * 128 =? 0).
        edestruct IHfuel as [H1 H2]; [exact Hl|]. split; [exact H1|]. rewrite H2.
        split; intros [H3 H4]; (split; [simpl in *; lia|]); intros x Hx.
        -- destruct Hx as [<-|Hx]; auto.
        -- apply H4. right. assumption.
Qed.

(** ZigZag. *)
Lemma z_of_u64_of_z : forall z, i64_ok z = true -> z_of_u64 (u64_of_z z) = z.
Proof. intros z H. unfold i64_ok in H. unfold z_of_u64, u64_of_z, two63, two64. repeat case_if; lia. Qed.
Lemma z_of_u32_of_z : forall z, i32_ok z = true -> z_of_u32 (u32_of_z z) = z.
Proof. intros z H. unfold i32_ok in H. unfold z_of_u32, u32_of_z, two32. repeat case_if; lia. Qed.
Lemma u64_of_z_lt : forall z, u64_of_z z < two64.
Proof. intro. unfold u64_of_z, two64. lia. Qed.

Lemma shiftr_63 : forall z, i64_ok z = true -> Z.shiftr z 63 = if (z <? 0)%Z then (-1)%Z else 0%Z.
Proof.
  intros z H. unfold i64_ok in H. rewrite Z.shiftr_div_pow2 by lia. change (2 ^ 63)%Z with 9223372036854775808%Z.
  repeat case_if; lia.
Qed.
Lemma shiftr_31 : forall z, i32_ok z = true -> Z.shiftr z 31 = if (z <? 0)%Z then (-1)%Z else 0%Z.
Proof.
  intros z H. unfold i32_ok in H. rewrite Z.shiftr_div_pow2 by lia. change (2 ^ 31)%Z with 2147483648%Z.
  repeat case_if; lia.
Qed.
Lemma lxor_m1 : forall z, Z.lxor z (-1) = (- z - 1)%Z.
Proof. intro z. rewrite Z.lxor_m1_r. unfold Z.lnot. lia. Qed.
Lemma zigzag_encode_i64_spec : forall z, i64_ok z = true -> zigzag_encode_i64 z = zigzag z.
Proof.
  intros z H. unfold zigzag_encode_i64. rewrite shiftr_63 by assumption.
  rewrite Z.shiftl_mul_pow2 by lia. change (2 ^ 1)%Z with 2%Z.
  unfold zigzag. unfold i64_ok in H.
  case_if.
  - rewrite lxor_m1. unfold wrap64, z_of_u64, u64_of_z, two63, two64. repeat case_if; lia.
  - rewrite Z.lxor_0_r. unfold wrap64, z_of_u64, u64_of_z, two63, two64. repeat case_if; lia.
Qed.
Lemma zigzag_lt : forall z, i64_ok z = true -> zigzag z < two64.
Proof. intros z H. unfold zigzag, i64_ok, two64 in *. repeat case_if; lia. Qed.
Lemma land_1 : forall n, N.land n 1 = n mod 2.
Proof. intro. change 1 with (N.ones 1) at 1. rewrite N.land_ones. reflexivity. Qed.
Lemma N_lxor_max : forall n, n < two64 -> N.lxor n (two64 - 1) = two64 - 1 - n.
Proof.
  intros n H.
  assert (N.lxor n (two64 - 1) = N.lnot n 64) as ->.
  { unfold N.lnot. f_equal. }
  destruct (N.eq_dec n 0) as [->|Hn]; [reflexivity|].
  rewrite N.lnot_sub_low; [reflexivity|]. apply N.log2_lt_pow2; [lia|exact H].
Qed.
Lemma zigzag_decode_i64_spec : forall z, i64_ok z = true -> zigzag_decode_i64 (zigzag z) = z.
Proof.
  intros z H. unfold zigzag_decode_i64. rewrite land_1.
  replace (N.shiftr (zigzag z) 1) with (zigzag z / 2) by (rewrite N.shiftr_div_pow2; reflexivity).
  unfold zigzag, i64_ok in *. destruct (0 <=? z)%Z eqn:Hz.
  - replace (Z.to_N (2 * z) mod 2) with 0 by lia.
    change (u64_of_z (- Z.of_N 0)) with 0. rewrite N.lxor_0_r.
    unfold z_of_u64, two63, two64. repeat case_if; lia.
  - replace (Z.to_N (-2 * z - 1) mod 2) with 1 by lia.
    change (u64_of_z (- Z.of_N 1)) with (two64 - 1).
    rewrite N_lxor_max by (unfold two64; lia).
    unfold z_of_u64, two63, two64. repeat case_if; lia.
Qed.
Lemma zigzag_roundtrip_i64 : forall z, i64_ok z = true ->
  zigzag_decode_i64 (zigzag_encode_i64 z) = z.
Proof. intros. rewrite zigzag_encode_i64_spec, zigzag_decode_i64_spec; auto. Qed.

Lemma zigzag_encode_i32_u32 : forall z, i32_ok z = true ->
  u32 (zigzag_encode_i32 z) = zigzag z.
Proof.
  intros z H. unfold zigzag_encode_i32. rewrite shiftr_31 by assumption.
  rewrite Z.shiftl_mul_pow2 by lia. change (2 ^ 1)%Z with 2%Z.
  unfold zigzag. unfold i32_ok in H. unfold u32, u64_of_z, wrap32, z_of_u32, u32_of_z, two32, two64.
  destruct (z <? 0)%Z eqn:Hs.
  - rewrite lxor_m1. repeat case_if; lia.
  - rewrite Z.lxor_0_r. repeat case_if; lia.
Qed.
(** The value actually written: sign extended when it does not fit 31 bits. *)
Lemma zigzag_encode_i32_wide : forall z, i32_ok z = true ->
  zigzag_encode_i32 z = if ((-1073741824 <=? z) && (z <? 1073741824))%Z then zigzag z
                        else zigzag z + (two64 - two32).
Proof.
  intros z H. unfold zigzag_encode_i32. rewrite shiftr_31 by assumption.
  rewrite Z.shiftl_mul_pow2 by lia. change (2 ^ 1)%Z with 2%Z.
  unfold zigzag. unfold i32_ok in H. unfold u64_of_z, wrap32, z_of_u32, u32_of_z, two32, two64.
  destruct (z <? 0)%Z eqn:Hs.
  - rewrite lxor_m1. repeat case_if; lia.
  - rewrite Z.lxor_0_r. repeat case_if; lia.
Qed.
Lemma zigzag_decode_i32_spec : forall z v, i32_ok z = true -> u32 v = zigzag z ->
  zigzag_decode_i32 v = z.
Proof.
  intros z v H E. unfold zigzag_decode_i32. rewrite E.
  replace (Z.land (z_of_u32 (zigzag z)) 1) with (Z.of_N (zigzag z mod 2)).
  2: { change 1%Z with (Z.ones 1) at 1. rewrite Z.land_ones by lia. change (2 ^ 1)%Z with 2%Z.
       unfold z_of_u32, two32. repeat case_if; lia. }
  replace (N.shiftr (zigzag z) 1) with (zigzag z / 2) by (rewrite N.shiftr_div_pow2; reflexivity).
  unfold zigzag, i32_ok in *. destruct (0 <=? z)%Z eqn:Hz.
  - replace (Z.to_N (2 * z) mod 2) with 0 by lia. change (- Z.of_N 0)%Z with 0%Z. rewrite Z.lxor_0_r. lia.
  - replace (Z.to_N (-2 * z - 1) mod 2) with 1 by lia. change (- Z.of_N 1)%Z with (-1)%Z.
    rewrite lxor_m1. lia.
Qed.
Lemma zigzag_roundtrip_i32 : forall z, i32_ok z = true ->
  zigzag_decode_i32 (zigzag_encode_i32 z) = z.
Proof. intros. apply zigzag_decode_i32_spec; [assumption|]. apply zigzag_encode_i32_u32. assumption. Qed.

Lemma gve_i64_roundtrip : forall z rest, i64_ok z = true ->
  gve_get_i64 (gve_put_i64 z ++ rest) = GveOk z rest.
Proof.
  intros z rest H. unfold gve_get_i64, gve_put_i64. rewrite gve_get_put.
  - rewrite zigzag_roundtrip_i64 by assumption. reflexivity.
  - rewrite zigzag_encode_i64_spec by assumption. apply zigzag_lt. assumption.
Qed.
Lemma gve_i16_roundtrip : forall z rest, i16_ok z = true ->
  gve_get_i16 (gve_put_i16 z ++ rest) = GveOk z rest.
Proof.
  intros z rest H.
  assert (Hz : i32_ok z = true) by (unfold i16_ok, i32_ok in *; lia).
  assert (Hv : u32 (zigzag_encode_i32 z) = zigzag z) by (apply zigzag_encode_i32_u32; assumption).
  unfold gve_get_i16, gve_get_i32, gve_put_i16, gve_put_u32. rewrite Hv.
  assert (Hb : zigzag z < 65536) by (unfold zigzag, i16_ok in *; case_if; lia).
  rewrite gve_get_put by (unfold two64; lia).
  replace (4294967295 <? zigzag z) with false by lia.
  rewrite (zigzag_decode_i32_spec z) by (try assumption; unfold u32, two32; apply N.mod_small; lia).
  rewrite H. reflexivity.
Qed.
Lemma gve_i32_roundtrip_iff : forall z rest, i32_ok z = true ->
  gve_get_i32 (gve_put_i32 z ++ rest) =
    if ((-1073741824 <=? z) && (z <? 1073741824))%Z then GveOk z rest else GveErr GVE_ERR_INT_TO_BIG.
Proof.
  intros z rest H. unfold gve_get_i32, gve_put_i32. rewrite gve_get_put.
  - rewrite zigzag_encode_i32_wide by assumption.
    destruct ((-1073741824 <=? z) && (z <? 1073741824))%Z eqn:Hz.
    + replace (4294967295 <? zigzag z) with false by (unfold zigzag in *; case_if; lia).
      f_equal. apply zigzag_decode_i32_spec; [assumption|]. unfold u32. apply N.mod_small.
      unfold zigzag, two32 in *. repeat case_if; lia.
    + replace (4294967295 <? zigzag z + (two64 - two32)) with true by (unfold two64, two32; lia).
      reflexivity.
  - unfold zigzag_encode_i32. apply u64_of_z_lt.
Qed.
Lemma gve_upto_roundtrip : forall max n rest, max < two64 -> n <= max ->
  gve_get_upto max (gve_put_u64 n ++ rest) = GveOk n rest.
Proof.
  intros. unfold gve_get_upto. rewrite gve_get_put by lia. replace (max <? n) with false by lia. reflexivity.
Qed.

(** Checked arithmetic. *)
Lemma checked_add_u64_exact : forall l r, l < two64 -> r < two64 ->
  checked_add_u64 l r = if l + r <? two64 then ChkOk (l + r) else ChkFail.
Proof.
  intros. unfold checked_add_u64, UINT64_MAX, u64, two64 in *. repeat case_if; try lia; try reflexivity.
  f_equal. lia.
Qed.
Lemma checked_sub_u64_exact : forall l r, l < two64 -> r < two64 ->
  checked_sub_u64 l r = if r <=? l then ChkOk (l - r) else ChkFail.
Proof.
  intros. unfold checked_sub_u64, u64, two64 in *. repeat case_if; try lia; try reflexivity.
  f_equal. lia.
Qed.
Lemma checked_add_i64_exact : forall l r, i64_ok l = true -> (l <> -9223372036854775808)%Z -> r < two64 ->
  checked_add_i64 l r = if i64_ok (l + Z.of_N r) then ChkOk (l + Z.of_N r)%Z else ChkFail.
Proof.
  intros l r Hl Hm Hr. unfold checked_add_i64, i64_ok, INT64_MAX, u64, u64_of_z, z_of_u64, two63, two64 in *.
  destruct (l <? 0)%Z eqn:Hs.
  - replace (l =? -9223372036854775808)%Z with false by lia.
    repeat case_if; try lia; try reflexivity; f_equal; lia.
  - repeat case_if; try lia; try reflexivity; f_equal; lia.
Qed.
Lemma checked_sub_i64_exact : forall l r, i64_ok l = true -> r < two64 ->
  checked_sub_i64 l r = if i64_ok (l - Z.of_N r) then ChkOk (l - Z.of_N r)%Z else ChkFail.
Proof.
  intros l r Hl Hr. unfold checked_sub_i64, i64_ok, INT64_MAX, u64, u64_of_z, z_of_u64, two63, two64 in *.
  destruct (l <? 0)%Z eqn:Hs; repeat case_if; try lia; try reflexivity; f_equal; lia.
Qed.

(** Forms used by PropCodec.v, with powers instead of literals. *)
Lemma gve_u32_roundtrip : forall n rest, n < 2 ^ 32 ->
  gve_get_u32 (gve_put_u32 n ++ rest) = GveOk n rest.
Proof.
  intros n rest H. change (2 ^ 32) with 4294967296 in H.
  apply gve_upto_roundtrip; unfold two64; lia.
Qed.
Lemma gve_u16_roundtrip : forall n rest, n < 2 ^ 16 ->
  gve_get_u16 (gve_put_u16 n ++ rest) = GveOk n rest.
Proof.
  intros n rest H. change (2 ^ 16) with 65536 in H.
  apply gve_upto_roundtrip; unfold two64; lia.
Qed.
Lemma gve_narrow_refuses : forall n rest, n < 2 ^ 64 ->
  (2 ^ 32 <= n -> gve_get_u32 (gve_put_u64 n ++ rest) = GveErr GVE_ERR_INT_TO_BIG) /\
  (2 ^ 16 <= n -> gve_get_u16 (gve_put_u64 n ++ rest) = GveErr GVE_ERR_INT_TO_BIG).
Proof.
  intros n rest H. change (2 ^ 32) with 4294967296. change (2 ^ 16) with 65536.
  unfold gve_get_u32, gve_get_u16, gve_get_upto. rewrite gve_get_put by exact H.
  split; intro H1.
  - replace (4294967295 <? n) with true by lia. reflexivity.
  - replace (65535 <? n) with true by lia. reflexivity.
Qed.
Lemma gve_prefix_free : forall a b x y, a < 2 ^ 64 -> b < 2 ^ 64 ->
  gve_put_u64 a ++ x = gve_put_u64 b ++ y -> a = b /\ x = y.
Proof.
  intros a b x y Ha Hb E. pose proof (gve_get_put a x Ha) as H1. rewrite E in H1.
  rewrite (gve_get_put b y Hb) in H1. inv H1. auto.
Qed.
Lemma gve_put_nonnil : forall a, a < 2 ^ 64 -> gve_put_u64 a <> [].
Proof. intros a H E. destruct (gve_put_u64_facts a H) as (_ & Hl & _). rewrite E in Hl. simpl in Hl. lia. Qed.
Lemma gve_concat_unique : forall l1 l2,
  Forall (fun n => n < 2 ^ 64) l1 -> Forall (fun n => n < 2 ^ 64) l2 ->
  concat (map gve_put_u64 l1) = concat (map gve_put_u64 l2) -> l1 = l2.
Proof.
  induction l1 as [|a l1 IH]; intros [|b l2] H1 H2 E; cbn [map concat] in E.
  - reflexivity.
  - inv H2. symmetry in E. apply app_eq_nil in E as [E _]. apply gve_put_nonnil in E; [tauto|assumption].
  - inv H1. apply app_eq_nil in E as [E _]. apply gve_put_nonnil in E; [tauto|assumption].
  - inv H1. inv H2. apply gve_prefix_free in E as [-> E]; [|assumption|assumption].
    f_equal. auto.
Qed.
Lemma gve_get_success : forall l v rest, bytes_ok l = true ->
  gve_get_u64 l = GveOk v rest ->
  v < 2 ^ 64 /\ exists consumed, l = consumed ++ rest /\ (1 <= length consumed <= 10)%nat.
Proof.
  intros l v rest Hl H. apply gve_get_bound in H; [|assumption].
  destruct H as (Hv & pre & -> & Hp & _). split; [exact Hv|]. eauto.
Qed.
Lemma gve_get_failure : forall l, bytes_ok l = true ->
  (gve_get_u64 l = GveErr GVE_ERR_DATA_SIZE <->
     (length l < 10)%nat /\ forall b, In b l -> 128 <= b) /\
  (forall e, gve_get_u64 l = GveErr e -> e = GVE_ERR_DATA_SIZE).
Proof.
  intros l Hl. destruct (get_loop_fail 10 0 0 l Hl) as [H1 H2]. split; [|exact H1].
  rewrite <- H2. split.
  - intro H. exists GVE_ERR_DATA_SIZE. exact H.
  - intros [e H]. pose proof (H1 e H) as He. subst e. exact H.
Qed.
Lemma gve_noncanonical :
  (exists l v, bytes_ok l = true /\ gve_get_u64 l = GveOk v [] /\ l <> gve_put_u64 v) /\
  (exists l v rest, bytes_ok l = true /\ gve_get_u64 l = GveOk v rest /\
     (forall b, In b (firstn 10 l) -> 128 <= b) /\ length rest = 1%nat).
Proof.
  split.
  - exists [128; 0], 0. repeat split. vm_compute. discriminate.
  - exists (repeat 129 10 ++ [7]). eexists. exists [7]. split; [reflexivity|].
    split; [vm_compute; reflexivity|]. split; [|reflexivity].
    intros b Hb. simpl in Hb. lia.
Qed.
Lemma zigzag_i64 : forall z, (-2 ^ 63 <= z < 2 ^ 63)%Z ->
  zigzag_encode_i64 z = zigzag z /\ zigzag_decode_i64 (zigzag_encode_i64 z) = z.
Proof.
  intros z H. change (2 ^ 63)%Z with 9223372036854775808%Z in H.
  assert (i64_ok z = true) by (unfold i64_ok; lia).
  split; [apply zigzag_encode_i64_spec | apply zigzag_roundtrip_i64]; assumption.
Qed.
Lemma zigzag_i32 : forall z, (-2 ^ 31 <= z < 2 ^ 31)%Z ->
  zigzag_encode_i32 z mod 2 ^ 32 = zigzag z /\ zigzag_decode_i32 (zigzag_encode_i32 z) = z.
Proof.
  intros z H. change (2 ^ 31)%Z with 2147483648%Z in H.
  assert (i32_ok z = true) by (unfold i32_ok; lia).
  split; [apply zigzag_encode_i32_u32 | apply zigzag_roundtrip_i32]; assumption.
Qed.
Lemma gve_i64_wire : forall z rest, (-2 ^ 63 <= z < 2 ^ 63)%Z ->
  gve_get_i64 (gve_put_i64 z ++ rest) = GveOk z rest.
Proof.
  intros z rest H. change (2 ^ 63)%Z with 9223372036854775808%Z in H.
  apply gve_i64_roundtrip. unfold i64_ok; lia.
Qed.
Lemma gve_i16_wire : forall z rest, (-2 ^ 15 <= z < 2 ^ 15)%Z ->
  gve_get_i16 (gve_put_i16 z ++ rest) = GveOk z rest.
Proof.
  intros z rest H. change (2 ^ 15)%Z with 32768%Z in H.
  apply gve_i16_roundtrip. unfold i16_ok; lia.
Qed.
Lemma gve_i32_wire : forall z rest, (-2 ^ 31 <= z < 2 ^ 31)%Z ->
  ((-2 ^ 30 <= z < 2 ^ 30)%Z -> gve_get_i32 (gve_put_i32 z ++ rest) = GveOk z rest) /\
  (~ (-2 ^ 30 <= z < 2 ^ 30)%Z ->
     gve_get_i32 (gve_put_i32 z ++ rest) = GveErr GVE_ERR_INT_TO_BIG).
Proof.
  intros z rest H. change (2 ^ 31)%Z with 2147483648%Z in H.
  change (2 ^ 30)%Z with 1073741824%Z. 
  rewrite gve_i32_roundtrip_iff by (unfold i32_ok; lia). split; intro H1.
  - replace ((-1073741824 <=? z) && (z <? 1073741824))%Z with true by lia. reflexivity.
  - replace ((-1073741824 <=? z) && (z <? 1073741824))%Z with false by lia. reflexivity.
Qed.
Lemma gve_i32_wire_bad : exists z, (-2 ^ 31 <= z < 2 ^ 31)%Z /\
  gve_get_i32 (gve_put_i32 z) <> GveOk z [].
Proof. exists (-2147483648)%Z. split; [lia|]. vm_compute. discriminate. Qed.
Lemma add_u64_exact : forall l r, l < 2 ^ 64 -> r < 2 ^ 64 ->
  (l + r < 2 ^ 64 -> checked_add_u64 l r = ChkOk (l + r)) /\
  (2 ^ 64 <= l + r -> checked_add_u64 l r = ChkFail).
Proof.
  intros l r Hl Hr. rewrite checked_add_u64_exact by assumption. change (2 ^ 64) with two64.
  split; intro H; case_if; try reflexivity; lia.
Qed.
Lemma sub_u64_exact : forall l r, l < 2 ^ 64 -> r < 2 ^ 64 ->
  (r <= l -> checked_sub_u64 l r = ChkOk (l - r)) /\
  (l < r -> checked_sub_u64 l r = ChkFail).
Proof.
  intros l r Hl Hr. rewrite checked_sub_u64_exact by assumption.
  split; intro H; case_if; try reflexivity; lia.
Qed.
Lemma add_i64_exact : forall l r, (-2 ^ 63 < l < 2 ^ 63)%Z -> r < 2 ^ 64 ->
  ((l + Z.of_N r < 2 ^ 63)%Z -> checked_add_i64 l r = ChkOk (l + Z.of_N r)%Z) /\
  ((2 ^ 63 <= l + Z.of_N r)%Z -> checked_add_i64 l r = ChkFail).
Proof.
  intros l r Hl Hr. change (2 ^ 63)%Z with 9223372036854775808%Z in *.
  rewrite checked_add_i64_exact by (unfold i64_ok; first [assumption|lia]).
  unfold i64_ok. split; intro H; case_if; try reflexivity; lia.
Qed.
Lemma sub_i64_exact : forall l r, (-2 ^ 63 <= l < 2 ^ 63)%Z -> r < 2 ^ 64 ->
  ((-2 ^ 63 <= l - Z.of_N r)%Z -> checked_sub_i64 l r = ChkOk (l - Z.of_N r)%Z) /\
  ((l - Z.of_N r < -2 ^ 63)%Z -> checked_sub_i64 l r = ChkFail).
Proof.
  intros l r Hl Hr. change (2 ^ 63)%Z with 9223372036854775808%Z in *.
  rewrite checked_sub_i64_exact by (unfold i64_ok; first [assumption|lia]).
  unfold i64_ok. split; intro H; case_if; try reflexivity; lia.
Qed.
Lemma add_i64_min : exists l r, (-2 ^ 63 <= l < 2 ^ 63)%Z /\ r < 2 ^ 64 /\
  checked_add_i64 l r = ChkUB.
Proof. exists (-9223372036854775808)%Z, 0. split; [lia|]. split; [lia|]. vm_compute. reflexivity. Qed.
(** The same with what the bytes are. *)
Lemma gve_u32_code : forall n rest, n < 2 ^ 32 ->
  is_vlq n (gve_put_u32 n) /\ gve_get_u32 (gve_put_u32 n ++ rest) = GveOk n rest.
Proof.
  intros n rest H. split; [|apply gve_u32_roundtrip; exact H].
  apply (gve_put_u64_facts n). change (2 ^ 32) with 4294967296 in H. unfold two64. lia.
Qed.
Lemma gve_u16_code : forall n rest, n < 2 ^ 16 ->
  is_vlq n (gve_put_u16 n) /\ gve_get_u16 (gve_put_u16 n ++ rest) = GveOk n rest.
Proof.
  intros n rest H. split; [|apply gve_u16_roundtrip; exact H].
  apply (gve_put_u64_facts n). change (2 ^ 16) with 65536 in H. unfold two64. lia.
Qed.
Lemma gve_i64_code : forall z rest, (-2 ^ 63 <= z < 2 ^ 63)%Z ->
  is_vlq (zigzag z) (gve_put_i64 z) /\ gve_get_i64 (gve_put_i64 z ++ rest) = GveOk z rest.
Proof.
  intros z rest H. split; [|apply gve_i64_wire; exact H]. change (2 ^ 63)%Z with 9223372036854775808%Z in H.
  assert (I : i64_ok z = true) by (unfold i64_ok; lia).
  unfold gve_put_i64. rewrite zigzag_encode_i64_spec by exact I. apply (gve_put_u64_facts _ (zigzag_lt z I)).
Qed.
Lemma gve_i16_code : forall z rest, (-2 ^ 15 <= z < 2 ^ 15)%Z ->
  is_vlq (zigzag z) (gve_put_i16 z) /\ gve_get_i16 (gve_put_i16 z ++ rest) = GveOk z rest.
Proof.
  intros z rest H. split; [|apply gve_i16_wire; exact H]. change (2 ^ 15)%Z with 32768%Z in H.
  assert (I : i32_ok z = true) by (unfold i32_ok; lia). assert (J : i64_ok z = true) by (unfold i64_ok; lia).
  unfold gve_put_i16. rewrite zigzag_encode_i32_u32 by exact I. apply (gve_put_u64_facts _ (zigzag_lt z J)).
Qed.
Lemma gve_i32_code : forall z rest, (-2 ^ 31 <= z < 2 ^ 31)%Z ->
  ((-2 ^ 30 <= z < 2 ^ 30)%Z -> is_vlq (zigzag z) (gve_put_i32 z) /\ gve_get_i32 (gve_put_i32 z ++ rest) = GveOk z rest) /\
  (~ (-2 ^ 30 <= z < 2 ^ 30)%Z ->
     is_vlq (zigzag z + (2 ^ 64 - 2 ^ 32)) (gve_put_i32 z) /\ gve_get_i32 (gve_put_i32 z ++ rest) = GveErr GVE_ERR_INT_TO_BIG).
Proof.
  intros z rest H. destruct (gve_i32_wire z rest H) as [A B]. change (2 ^ 31)%Z with 2147483648%Z in H.
  change (2 ^ 30)%Z with 1073741824%Z in *. change (2 ^ 64 - 2 ^ 32) with (two64 - two32).
  assert (I : i32_ok z = true) by (unfold i32_ok; lia).
  split; intro R; (split; [|auto]); unfold gve_put_i32.
  - assert (W := zigzag_encode_i32_wide z I). replace ((-1073741824 <=? z) && (z <? 1073741824))%Z with true in W by lia.
    rewrite W. apply gve_put_u64_facts. unfold zigzag, two64. case_if; lia.
  - assert (W := zigzag_encode_i32_wide z I). replace ((-1073741824 <=? z) && (z <? 1073741824))%Z with false in W by lia.
    rewrite W. apply gve_put_u64_facts. unfold zigzag, two64, two32. case_if; lia.
Qed.
