(** Correctness of the base58 encoder. *)
From Coq Require Import String.
From Verif Require Import Lib Base58 SpecText.
Local Open Scope list_scope.

(** Value of a little-endian digit list. *)
Fixpoint le58 (l : list N) : N := match l with [] => 0 | d :: t => d + 58 * le58 t end.
Definition dig (l : list N) : Prop := Forall (fun d => d < 58) l.

Lemma le58_zero : forall l, Forall (fun d => d = 0) l -> le58 l = 0.
Proof. induction 1; simpl; [reflexivity|]. subst. rewrite IHForall. reflexivity. Qed.
Lemma le58_bound : forall l, dig l -> le58 l < 58 ^ blen l.
Proof.
  induction 1 as [|d l Hd Hl IH]; [cbn; lia|]. cbn [le58]. unfold blen in *. cbn [length].
  replace (N.of_nat (S (length l))) with (N.succ (N.of_nat (length l))) by lia.
  rewrite N.pow_succ_r by lia. lia.
Qed.

(** One pass of the inner loop over the cells of index [k], [k+1], ... up to [last].
    Cells above [D] are zero, the pass may stop from cell [D+1] on, and the number fits
    in the cells up to [M]. *)
Lemma b58_inner_spec : forall ds k carry last D M,
  dig ds -> (k + blen ds = last + 1) -> last < SIZE_MAX -> D < last ->
  D + 1 <= M -> M <= last -> k <= M ->
  (forall i, D < k + N.of_nat i -> nth i ds 0 = 0) ->
  carry + 256 * le58 ds < 58 ^ (M - k + 1) ->
  exists ds' e, b58_inner ds (last - k) carry (last - D) = (ds', last - e) /\
    length ds' = length ds /\ dig ds' /\ le58 ds' = carry + 256 * le58 ds /\
    D + 1 <= e /\ e <= M /\ k <= e /\ (forall i, e < k + N.of_nat i -> nth i ds' 0 = 0).
Proof.
  induction ds as [|d t IH]; intros k carry last D M Hdig Hk Hsz HD HM HMl HkM Hzero Hb.
  - unfold blen in Hk. simpl in Hk. lia.
  - inv Hdig. cbn [b58_inner le58]. cbv zeta.
    set (c := carry + 256 * d). rewrite blen_cons in Hk.
    assert (Hsd : size_dec (last - D) = last - D - 1).
    { unfold size_dec. replace (last - D =? 0) with false by lia. reflexivity. }
    rewrite Hsd.
    assert (Hzt : forall i, D < k + 1 + N.of_nat i -> nth i t 0 = 0).
    { intros i Hi. apply (Hzero (S i)). lia. }
    assert (Ht0 : D <= k -> le58 t = 0).
    { intro Hdk. apply le58_zero. apply Forall_forall. intros x Hx.
      apply In_nth with (d := 0) in Hx as (i & _ & <-). apply Hzt. lia. }
    destruct ((last - k <=? last - D - 1) && (c / 58 =? 0)) eqn:Estop.
    + apply andb_true_iff in Estop as [E1 E2].
      assert (D + 1 <= k) by lia. assert (Hc : c < 58) by lia.
      rewrite N.mod_small by assumption.
      exists (c :: t), k. split; [reflexivity|]. split; [reflexivity|].
      split; [constructor; assumption|]. rewrite (Ht0 ltac:(lia)). cbn [le58]. rewrite Ht0 by lia.
      split; [unfold c; lia|]. split; [lia|]. split; [lia|]. split; [lia|].
      intros i Hi. destruct i as [|i]; [lia|]. cbn [nth]. apply Hzt. lia.
    + assert (Hlim : k < M).
      { destruct (N.eq_dec k M) as [->|]; [|lia]. exfalso.
        replace (M - M + 1) with 1 in Hb by lia. rewrite N.pow_1_r in Hb.
        cbn [le58] in Hb. assert (c < 58) by (unfold c; lia).
        rewrite (N.div_small c 58) in Estop by assumption. lia. }
      assert (Hsk : size_dec (last - k) = last - (k + 1)).
      { unfold size_dec. replace (last - k =? 0) with false by lia. lia. }
      rewrite Hsk.
      destruct (IH (k + 1) (c / 58) last D M) as (ds' & e & Hi & Hlen & Hd' & Hv & He1 & He2 & He3 & Hz); try assumption; try lia.
      { replace (M - (k + 1) + 1) with (M - k) by lia.
        replace (M - k + 1) with (N.succ (M - k)) in Hb by lia. rewrite N.pow_succ_r in Hb by lia.
        cbn [le58] in Hb. 
        assert (58 * (c / 58) <= c) by lia. unfold c in *. lia. }
      rewrite Hi. exists (c mod 58 :: ds'), e. split; [reflexivity|].
      split; [cbn [length]; lia|]. split; [constructor; [lia|assumption]|].
      cbn [le58]. rewrite Hv. split; [unfold c; lia|]. split; [lia|]. split; [lia|]. split; [lia|].
      intros i Hi'. destruct i as [|i]; [lia|]. cbn [nth]. apply Hz. lia.
Qed.

(** Enough digits: r bytes fit in 1.38 r + 1 digits. *)
Lemma pow_bound : forall r, 256 ^ r <= 58 ^ (r * 138 / 100 + 1).
Proof.
  intro r. apply (N.pow_le_mono_l_iff _ _ 100); [lia|].
  rewrite <- !N.pow_mul_r. rewrite (N.mul_comm r 100), N.pow_mul_r.
  assert (H100 : 256 ^ 100 <= 58 ^ 138) by (vm_compute; discriminate).
  transitivity ((58 ^ 138) ^ r).
  - apply N.pow_le_mono_l. exact H100.
  - rewrite <- N.pow_mul_r. apply N.pow_le_mono_r; lia.
Qed.

Lemma b58_outer_spec : forall input done digits last stop D,
  bytes_ok (done ++ input) = true -> 
  last = blen (done ++ input) * 138 / 100 -> last < SIZE_MAX ->
  blen digits = last + 1 -> dig digits -> le58 digits = be_value done ->
  stop = last - D -> D <= blen done * 138 / 100 ->
  (forall i, D < N.of_nat i -> nth i digits 0 = 0) ->
  exists ds, b58_outer input digits last stop = ds /\ dig ds /\ length ds = length digits /\
    le58 ds = be_value (done ++ input).
Proof.
  induction input as [|b input IH]; intros done digits last stop D Hok Hlast Hsz Hlen Hdig Hv -> HD Hz.
  - cbn [b58_outer]. exists digits. rewrite app_nil_r. auto.
  - cbn [b58_outer].
    assert (Hbl : blen (done ++ b :: input) = blen done + 1 + blen input) by (rewrite blen_app, blen_cons; lia).
    assert (HDl : D < last) by lia.
    assert (Hdone : blen (done ++ [b]) = blen done + 1) by (rewrite blen_app; reflexivity).
    assert (Hnew : be_value (done ++ [b]) = b + 256 * le58 digits) by (rewrite be_value_app1, Hv; lia).
    assert (Hok1 : bytes_ok (done ++ [b]) = true).
    { rewrite bytes_ok_app in *. apply andb_true_iff in Hok as [H1 H2]. apply bytes_ok_cons in H2 as [H2 H3].
      rewrite H1. simpl. unfold is_byte. rewrite andb_true_r. lia. }
    pose proof (be_value_bound _ Hok1) as Hbound. rewrite Hdone, Hnew in Hbound.
    set (M := (blen done + 1) * 138 / 100) in *.
    destruct (b58_inner_spec digits 0 b last D M) as (ds' & e & Hi & Hl' & Hd' & Hv' & He1 & He2 & _ & Hz'); try assumption; try lia.
    { unfold M. rewrite N.sub_0_r. pose proof (pow_bound (blen done + 1)). lia. }
    rewrite N.sub_0_r in Hi. rewrite Hi.
    edestruct (IH (done ++ [b]) ds' last (last - e) e) as (ds & E & Hds & Hdl & Hdv); try reflexivity.
    + rewrite <- app_assoc. exact Hok.
    + rewrite <- app_assoc. exact Hlast.
    + exact Hsz.
    + unfold blen in *. rewrite Hl'. exact Hlen.
    + exact Hd'.
    + rewrite Hnew. exact Hv'.
    + rewrite Hdone. exact He2.
    + intros i Hi'. apply Hz'. lia.
    + exists ds. split; [exact E|]. split; [exact Hds|]. split; [congruence|].
      rewrite Hdv, <- app_assoc. reflexivity.
Qed.

Lemma b58_value_app : forall l d, b58_value (l ++ [d]) = b58_value l * 58 + d.
Proof. intros. unfold b58_value. rewrite fold_left_app. reflexivity. Qed.
Lemma b58_value_rev : forall l, b58_value (rev l) = le58 l.
Proof. induction l as [|d l IH]; [reflexivity|]. cbn [rev le58]. rewrite b58_value_app, IH. lia. Qed.
Lemma drop_zeros_value : forall l, b58_value (drop_zeros l) = b58_value l.
Proof.
  induction l as [|d l IH]; [reflexivity|]. destruct d; [|reflexivity]. cbn [drop_zeros]. rewrite IH. reflexivity.
Qed.
Lemma drop_zeros_hd : forall l, hd 1 (drop_zeros l) <> 0.
Proof. induction l as [|d l IH]; [discriminate|]. destruct d; [exact IH|discriminate]. Qed.
Lemma drop_zeros_dig : forall l, dig l -> dig (drop_zeros l).
Proof. induction 1 as [|d l Hd Hl IH]; [constructor|]. destruct d; [exact IH|]. constructor; assumption. Qed.
Lemma drop_zeros_length : forall l, (length (drop_zeros l) <= length l)%nat.
Proof. induction l as [|d l IH]; [simpl; lia|]. destruct d; simpl; lia. Qed.
Lemma count_zeros_spec : forall l, l = repeat 0 (count_zeros l) ++ skipn (count_zeros l) l /\
  hd 1 (skipn (count_zeros l) l) <> 0.
Proof.
  induction l as [|b l [IH1 IH2]]; [split; [reflexivity|discriminate]|].
  destruct b; [|split; [reflexivity|discriminate]]. cbn [count_zeros repeat skipn app].
  split; [f_equal; exact IH1|exact IH2].
Qed.

Lemma base58_encode_spec : forall input out_len, bytes_ok input = true -> blen input <= 120 ->
  exists t, is_base58 input t /\ (length t <= N.to_nat (blen input * 138 / 100 + 1))%nat /\
    base58_encode input out_len = (if Nat.ltb out_len (length t) then None else Some t).
Proof.
  intros input out_len Hok Hlen. unfold base58_encode, MAX_ENC_INPUT_SIZE.
  replace (120 <? blen input) with false by lia.
  destruct (count_zeros_spec input) as [Hz Hh].
  set (z := count_zeros input) in *. set (body := skipn z input) in *. cbv zeta.
  set (sz := blen body * 138 / 100 + 1).
  assert (Hbl : blen input = N.of_nat z + blen body).
  { rewrite Hz. rewrite blen_app. unfold blen at 1. rewrite repeat_length. reflexivity. }
  destruct (b58_outer_spec body [] (repeat 0 (N.to_nat sz)) (sz - 1) (sz - 1) 0) as (ds & E & Hd & Hl & Hv).
  - cbn [app]. apply bytes_ok_skipn. exact Hok.
  - cbn [app]. unfold sz. lia.
  - unfold sz, SIZE_MAX. lia.
  - unfold blen. rewrite repeat_length. unfold sz. lia.
  - apply Forall_forall. intros x Hx. apply repeat_spec in Hx. lia.
  - rewrite le58_zero; [reflexivity|]. apply Forall_forall. intros x Hx. apply repeat_spec in Hx. exact Hx.
  - lia.
  - lia.
  - intros i Hi. destruct (Nat.ltb_spec i (N.to_nat sz)).
    + apply nth_repeat.
    + apply nth_overflow. rewrite repeat_length. assumption.
  - rewrite E. rewrite repeat_length in Hl.
    match goal with |- exists t, _ /\ _ /\ (if Nat.ltb _ (length ?x) then _ else _) = _ => exists x end.
    split; [|split; [|reflexivity]].
    + exists z, body, (drop_zeros (rev ds)). split; [exact Hz|]. split; [exact Hh|].
      split; [reflexivity|]. split; [apply drop_zeros_dig; apply Forall_rev; exact Hd|].
      split; [apply drop_zeros_hd|]. rewrite drop_zeros_value, b58_value_rev, Hv. reflexivity.
    + rewrite app_length, repeat_length, map_length.
      pose proof (drop_zeros_length (rev ds)) as Hdz. rewrite rev_length, Hl in Hdz. unfold sz in *. lia.
Qed.

(** The relation determines both sides. *)
Lemma b58_chars_inj : forall a b, a < 58 -> b < 58 ->
  nth (N.to_nat a) b58_chars 0 = nth (N.to_nat b) b58_chars 0 -> a = b.
Proof.
  assert (ND : NoDup b58_chars).
  { apply (NoDup_count_occ' N.eq_dec). intros x Hx. vm_compute in Hx.
    repeat (destruct Hx as [<-|Hx]; [vm_compute; reflexivity|]). destruct Hx. }
  intros a b Ha Hb E. rewrite NoDup_nth in ND. 
  assert (N.to_nat a = N.to_nat b); [|lia]. eapply ND; [| |exact E]; change (length b58_chars) with 58%nat; lia.
Qed.
Lemma b58_chars_one : forall d, d < 58 -> nth (N.to_nat d) b58_chars 0 = 49 -> d = 0.
Proof. intros d Hd E. apply b58_chars_inj; [assumption|lia|exact E]. Qed.
Lemma zeros_split : forall z z' (a b : text) (one : N), hd_error a <> Some one -> hd_error b <> Some one ->
  repeat one z ++ a = repeat one z' ++ b -> z = z' /\ a = b.
Proof.
  induction z; destruct z'; intros a b one Ha Hb E; simpl in E.
  - auto.
  - subst a. exfalso. apply Ha. reflexivity.
  - subst b. exfalso. apply Hb. reflexivity.
  - inv E. apply IHz in H0; auto. destruct H0 as [-> ->]. auto.
Qed.
Lemma map_chars_inj : forall a b, dig a -> dig b ->
  map (fun d => nth (N.to_nat d) b58_chars 0) a = map (fun d => nth (N.to_nat d) b58_chars 0) b -> a = b.
Proof.
  induction a as [|x a IH]; intros [|y b] Ha Hb E; try discriminate; [reflexivity|].
  inv Ha. inv Hb. inversion E as [[E1 E2]]. apply b58_chars_inj in E1; [|assumption|assumption].
  f_equal; [assumption|]. apply IH; assumption.
Qed.
Lemma be_value_inj_lead : forall a b, bytes_ok a = true -> bytes_ok b = true ->
  hd 1 a <> 0 -> hd 1 b <> 0 -> be_value a = be_value b -> a = b.
Proof.
  assert (L : forall a, bytes_ok a = true -> hd 1 a <> 0 -> a <> [] -> 256 ^ (blen a - 1) <= be_value a).
  { intros [|x a] Hok Hh Hn; [congruence|]. rewrite be_value_cons, blen_cons. simpl in Hh.
    replace (blen a + 1 - 1) with (blen a) by lia. nia. }
  assert (W : forall a b, bytes_ok a = true -> bytes_ok b = true -> hd 1 b <> 0 ->
    be_value a = be_value b -> blen a < blen b -> False).
  { intros a b Ha Hb Hh E Hl. assert (b <> []) by (intros ->; unfold blen in Hl; simpl in Hl; lia).
    pose proof (L b Hb Hh H). pose proof (be_value_bound a Ha).
    assert (256 ^ (blen b - 1) < 256 ^ blen a) as HH by lia. apply N.pow_lt_mono_r_iff in HH; lia. }
  intros a b Ha Hb Hha Hhb E.
  assert (Hlen : length a = length b).
  { destruct (N.lt_trichotomy (blen a) (blen b)) as [H|[H|H]].
    - exfalso. exact (W a b Ha Hb Hhb E H).
    - unfold blen in H. lia.
    - exfalso. exact (W b a Hb Ha Hha (eq_sym E) H). }
  rewrite <- (be_bytes_be_value a Ha), <- (be_bytes_be_value b Hb). congruence.
Qed.
Lemma is_base58_inj : forall a b t, bytes_ok a = true -> bytes_ok b = true ->
  is_base58 a t -> is_base58 b t -> a = b.
Proof.
  intros a b t Ha Hb (z & body & ds & -> & Hh & -> & Hd & Hdh & Hv) (z' & body' & ds' & -> & Hh' & E & Hd' & Hdh' & Hv').
  assert (NZ : forall ds, dig ds -> hd 1 ds <> 0 ->
            hd_error (map (fun d => nth (N.to_nat d) b58_chars 0) ds) <> Some 49).
  { intros [|d l] Hdl Hhl; [discriminate|]. inv Hdl. cbn [map hd_error]. intro EE. inversion EE as [E1].
    apply b58_chars_one in E1; [|assumption]. simpl in Hhl. congruence. }
  apply zeros_split in E; auto. destruct E as [-> E]. apply map_chars_inj in E; [|assumption|assumption].
  subst ds'. f_equal. rewrite bytes_ok_app in Ha, Hb. apply andb_true_iff in Ha as [_ Ha]. apply andb_true_iff in Hb as [_ Hb].
  apply be_value_inj_lead; auto. congruence.
Qed.
Lemma base58_exact : forall input out_len, bytes_ok input = true -> blen input <= 120 ->
  exists t, is_base58 input t /\
    base58_encode input out_len = (if Nat.ltb out_len (length t) then None else Some t).
Proof.
  intros input n H1 H2. destruct (base58_encode_spec input n H1 H2) as (t & H & _ & E). eauto.
Qed.
Lemma base58_injective : forall a b n m t, bytes_ok a = true -> bytes_ok b = true ->
  base58_encode a n = Some t -> base58_encode b m = Some t -> a = b.
Proof.
  assert (L : forall a n t, base58_encode a n = Some t -> blen a <= 120).
  { intros a n t H. unfold base58_encode, MAX_ENC_INPUT_SIZE in H. destruct (120 <? blen a) eqn:E; [discriminate|lia]. }
  intros a b n m t Ha Hb Ea Eb.
  destruct (base58_exact a n Ha (L _ _ _ Ea)) as (ta & Sa & Fa).
  destruct (base58_exact b m Hb (L _ _ _ Eb)) as (tb & Sb & Fb).
  rewrite Ea in Fa. rewrite Eb in Fb.
  destruct (Nat.ltb n (length ta)); [discriminate|]. destruct (Nat.ltb m (length tb)); [discriminate|].
  inv Fa. inv Fb. eapply is_base58_inj; eassumption.
Qed.
Lemma base58_fits : forall a cap, bytes_ok a = true -> (length a <= 38)%nat -> (55 <= cap)%nat ->
  exists t, base58_encode a cap = Some t /\ (length t < 55)%nat.
Proof.
  intros a cap Ha Hl Hc. destruct (base58_encode_spec a cap Ha) as (t & _ & Ht & E).
  - unfold blen. lia.
  - assert (length t < 55)%nat by (unfold blen in Ht; lia).
    exists t. rewrite E. replace (Nat.ltb cap (length t)) with false by (symmetry; apply Nat.ltb_ge; lia). auto.
Qed.
