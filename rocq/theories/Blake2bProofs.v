From Verif Require Import Lib Env RwBuffer SafeInt Blake2b RwBufferProofs.
From Verif Require Import SpecBlake SpecHash.

#[local] Arguments N.eqb : simpl never.
#[local] Arguments N.ltb : simpl never.
#[local] Arguments N.leb : simpl never.
#[local] Arguments N.sub : simpl never.
#[local] Arguments N.pow : simpl never.
#[local] Arguments blen : simpl never.
#[local] Arguments firstn : simpl never.
#[local] Arguments skipn : simpl never.

Lemma W_two64 : two64 = W. Proof. reflexivity. Qed.
Lemma W_pos : W <> 0. Proof. discriminate. Qed.

(** ** Words *)
Lemma lor_shift : forall a b k, a < 2 ^ k -> N.lor a (N.shiftl b k) = a + b * 2 ^ k.
Proof.
  intros a b k H. rewrite <- N.lxor_lor, <- N.add_nocarry_lxor, N.shiftl_mul_pow2; [reflexivity| |];
  apply N.bits_inj; intro n; rewrite N.land_spec, N.bits_0;
  (destruct (N.lt_ge_cases n k) as [L|L];
   [rewrite (N.shiftl_spec_low _ _ _ L); apply Bool.andb_false_r
   |destruct (N.eq_dec a 0) as [->|Ha]; [rewrite N.bits_0; reflexivity|];
    rewrite (N.bits_above_log2 a n); [reflexivity|];
    apply N.log2_lt_pow2 in H; lia]).
Qed.

Lemma rotr64_rot : forall w c, w < W -> 0 < c -> c < 64 -> rotr64 w c = rot w c.
Proof.
  intros w c H H0 H1. unfold rotr64, rot, u64. rewrite W_two64. rewrite N.shiftr_div_pow2, N.shiftl_mul_pow2.
  assert (E : W = 2 ^ c * 2 ^ (64 - c)) by (unfold W; rewrite <- N.pow_add_r; f_equal; lia).
  rewrite E. rewrite N.mul_mod_distr_r by (apply N.pow_nonzero; discriminate).
  rewrite <- (N.shiftl_mul_pow2 (w mod 2 ^ c)). rewrite lor_shift; [rewrite N.shiftl_mul_pow2; reflexivity|].
  apply N.div_lt_upper_bound; [apply N.pow_nonzero; discriminate|]. rewrite <- E. exact H.
Qed.
Lemma rot_word : forall w c, w < W -> c <= 64 -> rot w c < W.
Proof.
  intros w c H H1. unfold rot.
  assert (E : W = 2 ^ c * 2 ^ (64 - c)) by (unfold W; rewrite <- N.pow_add_r; f_equal; lia).
  assert (P : 2 ^ c <> 0) by (apply N.pow_nonzero; discriminate).
  assert (A : w / 2 ^ c < 2 ^ (64 - c)) by (apply N.div_lt_upper_bound; [exact P|rewrite <- E; exact H]).
  pose proof (N.mod_upper_bound w (2 ^ c) P). rewrite E. nia.
Qed.
Lemma lxor_word : forall a b, a < W -> b < W -> N.lxor a b < W.
Proof.
  intros a b Ha Hb. destruct (N.eq_dec (N.lxor a b) 0) as [->|Hn]; [reflexivity|].
  apply N.log2_lt_pow2; [lia|]. eapply N.le_lt_trans; [apply N.log2_lxor|].
  apply N.max_lub_lt.
  - destruct (N.eq_dec a 0) as [->|]; [reflexivity|]. apply N.log2_lt_pow2; [lia|exact Ha].
  - destruct (N.eq_dec b 0) as [->|]; [reflexivity|]. apply N.log2_lt_pow2; [lia|exact Hb].
Qed.

Lemma le_bound : forall l, string_of_bytes l -> le l < 2 ^ (8 * N.of_nat (length l)).
Proof.
  induction 1 as [|b l Hb Hl IH]; [reflexivity|]. cbn [le length].
  replace (8 * N.of_nat (S (length l))) with (8 + 8 * N.of_nat (length l)) by lia.
  rewrite N.pow_add_r. change (2 ^ 8) with 256. nia.
Qed.
Lemma le_app1 : forall l b, le (l ++ [b]) = le l + b * 2 ^ (8 * N.of_nat (length l)).
Proof.
  induction l as [|x l IH]; intro b; cbn [le length app].
  - change (2 ^ (8 * N.of_nat 0)) with 1. lia.
  - rewrite IH. replace (8 * N.of_nat (S (length l))) with (8 + 8 * N.of_nat (length l)) by lia.
    rewrite N.pow_add_r. change (2 ^ 8) with 256. lia.
Qed.
Lemma load64_fold : forall l n, string_of_bytes l -> (n <= length l)%nat ->
  fold_left N.lor (map (fun i => N.shiftl (nth i l 0) (8 * N.of_nat i)) (seq 0 n)) 0 = le (firstn n l).
Proof.
  intros l n Hl. induction n as [|n IH]; intro H; [reflexivity|].
  rewrite seq_S, map_app, fold_left_app. rewrite IH by lia.
  cbn [map fold_left]. change (0 + n)%nat with n.
  assert (L : length (firstn n l) = n) by (apply firstn_length_le; lia).
  assert (Hn : string_of_bytes (firstn n l)).
  { unfold string_of_bytes in *. rewrite Forall_forall in *. intros x Hx. apply Hl.
    rewrite <- (firstn_skipn n l). apply in_or_app. left. exact Hx. }
  rewrite lor_shift.
  2: { pose proof (le_bound _ Hn) as B. rewrite L in B. exact B. }
  assert (E : firstn (S n) l = firstn n l ++ [nth n l 0]).
  { clear - H. revert l H. induction n as [|n IH]; intros [|x l] H; cbn in H; try lia; [reflexivity|].
    change (firstn (S (S n)) (x :: l)) with (x :: firstn (S n) l). rewrite IH by lia. reflexivity. }
  rewrite E, le_app1, L. reflexivity.
Qed.
Lemma load64_le : forall l, string_of_bytes l -> (8 <= length l)%nat -> load64 l = le (firstn 8 l).
Proof. intros l Hl H. apply (load64_fold l 8 Hl H). Qed.

Lemma store64_le : forall w, store64 w = word_le 8 w.
Proof.
  intro w. assert (A : forall i, u8 (N.shiftr w (8 * N.of_nat i)) = (w / 256 ^ N.of_nat i) mod 256).
  { intro i. unfold u8. rewrite N.shiftr_div_pow2. rewrite N.pow_mul_r. reflexivity. }
  assert (B : forall n w', word_le n w' = map (fun i => (w' / 256 ^ N.of_nat i) mod 256) (seq 0 n)).
  { induction n as [|n IH]; intro w'; [reflexivity|]. cbn [word_le seq map]. change (256 ^ N.of_nat 0) with 1.
    rewrite N.div_1_r. f_equal. rewrite IH, <- seq_shift, map_map. apply map_ext. intro i.
    rewrite N.div_div by (try discriminate; apply N.pow_nonzero; discriminate).
    rewrite Nat2N.inj_succ, N.pow_succ_r'. reflexivity. }
  rewrite B. unfold store64. apply map_ext. exact A.
Qed.

(** ** The compression function *)
Definition wok (n : nat) (v : list N) : Prop := length v = n /\ Forall (fun x => x < W) v.
Lemma wok_nth : forall n v i, wok n v -> nth i v 0 < W.
Proof.
  intros n v i [_ H]. destruct (Nat.lt_ge_cases i (length v)) as [L|L].
  - rewrite Forall_forall in H. apply H. apply nth_In. exact L.
  - rewrite nth_overflow by exact L. reflexivity.
Qed.
Lemma at_wok : forall n v i x, wok n v -> x < W -> wok n (at_ v i x).
Proof.
  intros n v i x [L H] Hx. revert n i L. induction v as [|y v IH]; intros n i L; [split; [exact L|constructor]|].
  inversion H as [|? ? Hy Hv]; subst. destruct i as [|i].
  - split; [reflexivity|]. constructor; assumption.
  - destruct (IH Hv (length v) i eq_refl) as [L1 H1]. split; [cbn; rewrite L1; reflexivity|]. constructor; assumption.
Qed.
Lemma vset_at : forall v i x, (i < length v)%nat -> vset v i x = at_ v i x.
Proof.
  unfold vset. induction v as [|y v IH]; intros i x H; [cbn in H; lia|]. destruct i as [|i]; [reflexivity|].
  cbn [at_]. rewrite <- IH by (cbn in H; lia). reflexivity.
Qed.
Lemma add3 : forall a b x, u64 (u64 (a + b) + x) = (a + b + x) mod W.
Proof. intros. unfold u64. rewrite W_two64. rewrite N.add_mod_idemp_l by apply W_pos. reflexivity. Qed.
Lemma mod_word : forall x, x mod W < W.
Proof. intro x. apply N.mod_upper_bound. apply W_pos. Qed.

Lemma G_mix : forall v a b c d x y, wok 16 v -> (a < 16)%nat -> (b < 16)%nat -> (c < 16)%nat -> (d < 16)%nat ->
  blake2b_G x y a b c d v = mix v a b c d x y /\ wok 16 (mix v a b c d x y).
Proof.
  intros v a b c d x y H Ha Hb Hc Hd. unfold blake2b_G, mix, vget. cbv zeta.
  Ltac step16 :=
    match goal with
    | H : wok 16 ?v |- context [vset ?v ?i ?e] =>
        rewrite (vset_at v i e) by (rewrite (proj1 H); lia)
    end.
  Ltac fin16 v i e :=
    let v' := fresh "v" in let Hv := fresh "H" in
    match goal with H : wok 16 v |- _ =>
      assert (Hv : wok 16 (at_ v i e))
        by (apply at_wok; [exact H|
              first [apply mod_word | apply rot_word; [apply lxor_word; apply (wok_nth 16); exact H|lia]]]);
      set (v' := at_ v i e) in *; clearbody v'; clear H end.
  Ltac rots := rewrite rotr64_rot; [|apply lxor_word; eapply wok_nth; eassumption|lia|lia].
  step16. rewrite add3. 
  match goal with |- context [at_ v a ?e] => fin16 v a e end.
  step16. rots. match goal with |- context [at_ ?w d ?e] => fin16 w d e end.
  step16. match goal with |- context [u64 ?e] => change (u64 e) with (e mod W) end.
  match goal with |- context [at_ ?w c ?e] => fin16 w c e end.
  step16. rots. match goal with |- context [at_ ?w b ?e] => fin16 w b e end.
  step16. rewrite add3. match goal with |- context [at_ ?w a ?e] => fin16 w a e end.
  step16. rots. match goal with |- context [at_ ?w d ?e] => fin16 w d e end.
  step16. match goal with |- context [u64 ?e] => change (u64 e) with (e mod W) end.
  match goal with |- context [at_ ?w c ?e] => fin16 w c e end.
  step16. rots. match goal with |- context [at_ ?w b ?e] => fin16 w b e end.
  split; [reflexivity|assumption].
Qed.

Lemma sigma_rows : forall r, (r < 12)%nat -> nth r blake2b_sigma [] = nth (Nat.modulo r 10) SIGMA [].
Proof. intros r H. do 12 (destruct r as [|r]; [reflexivity|]). lia. Qed.

Lemma round_eq : forall m v r, wok 16 v -> (r < 12)%nat ->
  blake2b_ROUND m v r = a_round m v r /\ wok 16 (a_round m v r).
Proof.
  intros m v r H Hr. unfold blake2b_ROUND, a_round. rewrite (sigma_rows r Hr).
  set (row := nth (Nat.modulo r 10) SIGMA []). clearbody row. cbv zeta.
  cbn [fold_left]. change (2 * 0)%nat with 0%nat. change (2 * 1)%nat with 2%nat. change (2 * 2)%nat with 4%nat.
  change (2 * 3)%nat with 6%nat. change (2 * 4)%nat with 8%nat. change (2 * 5)%nat with 10%nat.
  change (2 * 6)%nat with 12%nat. change (2 * 7)%nat with 14%nat.
  change (0 + 1)%nat with 1%nat. change (2 + 1)%nat with 3%nat. change (4 + 1)%nat with 5%nat.
  change (6 + 1)%nat with 7%nat. change (8 + 1)%nat with 9%nat. change (10 + 1)%nat with 11%nat.
  change (12 + 1)%nat with 13%nat. change (14 + 1)%nat with 15%nat.
  Ltac gstep :=
    match goal with
    | H : wok 16 ?v |- context [mix ?v ?a ?b ?c ?d ?x ?y] =>
        let E := fresh "E" in let Hw := fresh "Hw" in
        destruct (G_mix v a b c d x y H ltac:(lia) ltac:(lia) ltac:(lia) ltac:(lia)) as [E Hw];
        rewrite E; clear E;
        let v' := fresh "v" in set (v' := mix v a b c d x y) in *; clearbody v'; clear H
    end.
  do 8 gstep. split; [reflexivity|assumption].
Qed.
Lemma rounds_eq : forall m n v, wok 16 v -> (n <= 12)%nat ->
  fold_left (blake2b_ROUND m) (seq 0 n) v = fold_left (a_round m) (seq 0 n) v
  /\ wok 16 (fold_left (a_round m) (seq 0 n) v).
Proof.
  intros m n v H. induction n as [|n IH]; intro Hn; [split; [reflexivity|exact H]|].
  destruct (IH ltac:(lia)) as [E Hw]. rewrite seq_S, !fold_left_app, E. cbn [fold_left Nat.add].
  apply round_eq; [exact Hw|lia].
Qed.

Lemma skipn_bytes : forall n l, string_of_bytes l -> string_of_bytes (skipn n l).
Proof.
  intros n l H. unfold string_of_bytes in *. rewrite Forall_forall in *. intros x Hx. apply H.
  rewrite <- (firstn_skipn n l). apply in_or_app. right. exact Hx.
Qed.
Lemma firstn_bytes : forall n l, string_of_bytes l -> string_of_bytes (firstn n l).
Proof.
  intros n l H. unfold string_of_bytes in *. rewrite Forall_forall in *. intros x Hx. apply H.
  rewrite <- (firstn_skipn n l). apply in_or_app. left. exact Hx.
Qed.
Lemma block_load : forall b, string_of_bytes b -> length b = 128%nat ->
  map (fun i => load64 (skipn (8 * i) b)) (seq 0 16) = map (le_word b) (seq 0 16).
Proof.
  intros b H L. apply map_ext_in. intros i Hi. apply in_seq in Hi. unfold le_word.
  apply load64_le; [apply skipn_bytes; exact H|]. rewrite skipn_length. lia.
Qed.

(** The flags of the last block. *)
Definition flag_of (last : bool) : N := if last then UINT64_MAX else 0.
Lemma compress_F : forall s b t last, wok 8 (b2_h s) -> string_of_bytes b -> length b = 128%nat ->
  b2_t0 s = t mod W -> b2_t1 s = (t / W) mod W -> b2_f0 s = flag_of last -> b2_f1 s = 0 ->
  blake2b_compress s b = mk_b2 (F (b2_h s) (map (le_word b) (seq 0 16)) t last) (b2_t0 s) (b2_t1 s) (b2_f0 s) (b2_f1 s)
                               (b2_buf s) (b2_buflen s) (b2_outlen s)
  /\ wok 8 (F (b2_h s) (map (le_word b) (seq 0 16)) t last).
Proof.
  intros s b t last Hh Hb Lb T0 T1 F0 F1. unfold blake2b_compress. rewrite (block_load b Hb Lb).
  set (m := map (le_word b) (seq 0 16)). clearbody m. cbv zeta.
  rewrite T0, T1, F0, F1.
  set (h := b2_h s) in *. clearbody h. destruct Hh as [Lh Fh].
  set (t0 := t mod W). set (t1 := (t / W) mod W).
  assert (Ht0 : t0 < W) by apply mod_word. assert (Ht1 : t1 < W) by apply mod_word.
  assert (V : let v := h ++ IV in
     let v := at_ v 12 (N.lxor (nth 12 v 0) t0) in
     let v := at_ v 13 (N.lxor (nth 13 v 0) t1) in
     let v := if last then at_ v 14 (N.lxor (nth 14 v 0) (W - 1)) else v in
     v = h ++ [nth 0 blake2b_IV 0; nth 1 blake2b_IV 0; nth 2 blake2b_IV 0; nth 3 blake2b_IV 0; N.lxor (nth 4 blake2b_IV 0) t0;
               N.lxor (nth 5 blake2b_IV 0) t1; N.lxor (nth 6 blake2b_IV 0) (flag_of last); N.lxor (nth 7 blake2b_IV 0) 0]
     /\ wok 16 v).
  { do 8 (destruct h as [|? h]; [discriminate Lh|]). destruct h; [|discriminate Lh]. cbv zeta.
    split.
    - destruct last; cbn [at_ app IV nth flag_of blake2b_IV]; rewrite ?N.lxor_0_r; reflexivity.
    - assert (A : wok 16 ([n; n0; n1; n2; n3; n4; n5; n6] ++ IV)).
      { split; [reflexivity|]. apply Forall_app. split; [exact Fh|]. repeat constructor. }
      set (v0 := [n; n0; n1; n2; n3; n4; n5; n6] ++ IV) in *. clearbody v0.
      assert (B : wok 16 (at_ v0 12 (N.lxor (nth 12 v0 0) t0)))
        by (apply at_wok; [exact A|]; apply lxor_word; [apply (wok_nth 16); exact A|exact Ht0]).
      set (v1 := at_ v0 12 (N.lxor (nth 12 v0 0) t0)) in *. clearbody v1.
      assert (C : wok 16 (at_ v1 13 (N.lxor (nth 13 v1 0) t1)))
        by (apply at_wok; [exact B|]; apply lxor_word; [apply (wok_nth 16); exact B|exact Ht1]).
      set (v2 := at_ v1 13 (N.lxor (nth 13 v1 0) t1)) in *. clearbody v2.
      destruct last; [|exact C]. apply at_wok; [exact C|]. apply lxor_word; [apply (wok_nth 16); exact C|reflexivity]. }
  cbv zeta in V. destruct V as [V Hv].
  unfold F. cbv zeta. fold t0 t1.
  set (v := if last then _ else _) in *.
  rewrite <- V. clearbody v. clear V.
  destruct (rounds_eq m 12 v Hv (le_n 12)) as [E Hw]. rewrite E. clear E.
  set (w := fold_left (a_round m) (seq 0 12) v) in *. clearbody w.
  split.
  - f_equal. apply map_ext. intro i. apply N.lxor_assoc.
  - split; [reflexivity|]. apply Forall_forall. intros x Hx. apply in_map_iff in Hx. destruct Hx as (i & <- & _).
    apply lxor_word; [apply (wok_nth 8); split; assumption|]. apply lxor_word; apply (wok_nth 16); exact Hw.
Qed.

(** ** Streaming *)
Definition absorbed (nn : N) (msg : bytes) (k : nat) : list N :=
  fold_left (fun h i => F h (block_words msg i) (N.of_nat (128 * (i + 1))) false) (seq 0 k) (h0 nn).
Lemma absorbed_S : forall nn msg k,
  absorbed nn msg (S k) = F (absorbed nn msg k) (block_words msg k) (N.of_nat (128 * (k + 1))) false.
Proof. intros. unfold absorbed. rewrite seq_S, fold_left_app. reflexivity. Qed.

Lemma block_full : forall msg k, (128 * (k + 1) <= length msg)%nat -> block msg k = firstn 128 (skipn (128 * k) msg).
Proof.
  intros msg k H. unfold block. rewrite firstn_length, skipn_length.
  replace (128 - Nat.min 128 (length msg - 128 * k))%nat with 0%nat by lia. apply app_nil_r.
Qed.
Lemma absorbed_app : forall nn l c k, (128 * k <= length l)%nat -> absorbed nn (l ++ c) k = absorbed nn l k.
Proof.
  intros nn l c k. induction k as [|k IH]; intro H; [reflexivity|].
  rewrite !absorbed_S, IH by lia. f_equal. unfold block_words. f_equal. 
  rewrite !block_full by (try rewrite app_length; lia).
  rewrite skipn_app, firstn_app, skipn_length.
  replace (128 - (length l - 128 * k))%nat with 0%nat by lia.
  change (firstn 0 (skipn (128 * k - length l) c)) with (@nil N). rewrite app_nil_r. reflexivity.
Qed.

#[local] Opaque absorbed F blake2b_compress.

Lemma counter : forall T inc, inc < W ->
  let t0 := u64 (T mod W + inc) in
  t0 = (T + inc) mod W /\ u64 ((T / W) mod W + (if t0 <? inc then 1 else 0)) = ((T + inc) / W) mod W.
Proof.
  intros T inc H. cbv zeta. unfold u64. rewrite W_two64.
  pose proof (N.div_mod T W W_pos) as D. pose proof (mod_word T) as B.
  set (q := T / W) in *. set (r := T mod W) in *. clearbody q r. subst T.
  rewrite N.add_mod_idemp_l by apply W_pos.
  destruct (N.lt_ge_cases (r + inc) W) as [L|L].
  - rewrite (N.mod_small (r + inc)) by exact L.
    replace (W * q + r + inc) with (r + inc + q * W) by lia.
    rewrite N.mod_add, N.div_add by apply W_pos. rewrite N.mod_small, N.div_small by exact L.
    split; [reflexivity|]. replace (r + inc <? inc) with false by lia. f_equal; lia.
  - assert (Em : (r + inc) mod W = r + inc - W).
    { replace (r + inc) with (r + inc - W + 1 * W) at 1 by lia. rewrite N.mod_add by apply W_pos. apply N.mod_small. lia. }
    rewrite Em.
    replace (W * q + r + inc) with (r + inc - W + (q + 1) * W) by lia.
    rewrite N.mod_add, N.div_add by apply W_pos. rewrite N.mod_small, N.div_small by lia.
    split; [reflexivity|]. replace (r + inc - W <? inc) with true by lia. f_equal; lia.
Qed.

(** Everything but the buffer: [k] blocks of [l] are done. *)
Record done (nn : N) (l : bytes) (k : nat) (s : b2state) : Prop := mk_done {
  d_h : b2_h s = absorbed nn l k;
  d_wok : wok 8 (b2_h s);
  d_t0 : b2_t0 s = N.of_nat (128 * k) mod W;
  d_t1 : b2_t1 s = (N.of_nat (128 * k) / W) mod W;
  d_f0 : b2_f0 s = 0;
  d_f1 : b2_f1 s = 0;
  d_buf : length (b2_buf s) = 128%nat;
  d_out : b2_outlen s = nn }.

Lemma done_block : forall nn l k s b, done nn l k s -> string_of_bytes l -> (128 * (k + 1) <= length l)%nat ->
  b = firstn 128 (skipn (128 * k) l) ->
  let s' := blake2b_compress (blake2b_increment_counter s 128) b in
  done nn l (S k) s' /\ b2_buf s' = b2_buf s /\ b2_buflen s' = b2_buflen s.
Proof.
  intros nn l k s b D Hl Hk ->. cbv zeta.
  destruct (counter (N.of_nat (128 * k)) 128 ltac:(reflexivity)) as [C0 C1]. cbv zeta in C1.
  assert (ET : N.of_nat (128 * k) + 128 = N.of_nat (128 * (k + 1))) by lia. rewrite ET in C0, C1.
  assert (Lb : length (firstn 128 (skipn (128 * k) l)) = 128%nat).
  { rewrite firstn_length, skipn_length. lia. }
  destruct (compress_F (blake2b_increment_counter s 128) (firstn 128 (skipn (128 * k) l)) (N.of_nat (128 * (k + 1))) false) as [E Hw].
  - exact (d_wok _ _ _ _ D).
  - apply firstn_bytes, skipn_bytes, Hl.
  - exact Lb.
  - cbn [blake2b_increment_counter b2_t0]. rewrite (d_t0 _ _ _ _ D). exact C0.
  - cbn [blake2b_increment_counter b2_t1]. rewrite (d_t0 _ _ _ _ D), (d_t1 _ _ _ _ D). exact C1.
  - exact (d_f0 _ _ _ _ D).
  - exact (d_f1 _ _ _ _ D).
  - rewrite E. clear E. cbn [blake2b_increment_counter b2_h] in *.
    split; [|split; reflexivity].
    split; cbn [b2_h b2_t0 b2_t1 b2_f0 b2_f1 b2_buf b2_outlen blake2b_increment_counter].
    + rewrite absorbed_S, <- (d_h _ _ _ _ D). unfold block_words. rewrite block_full by exact Hk. reflexivity.
    + exact Hw.
    + rewrite (d_t0 _ _ _ _ D), C0. do 2 f_equal. lia.
    + rewrite (d_t0 _ _ _ _ D), (d_t1 _ _ _ _ D), C1. do 3 f_equal. lia.
    + exact (d_f0 _ _ _ _ D).
    + exact (d_f1 _ _ _ _ D).
    + exact (d_buf _ _ _ _ D).
    + exact (d_out _ _ _ _ D).
Qed.

Lemma skipn_skipn' : forall A (a b : nat) (l : list A), skipn a (skipn b l) = skipn (b + a) l.
Proof.
  intros A a b. revert a. induction b as [|b IH]; intros a l; [reflexivity|].
  destruct l as [|x l]; [change (skipn (S b) (@nil A)) with (@nil A); change (skipn (S b + a) (@nil A)) with (@nil A); destruct a; reflexivity|].
  apply IH.
Qed.

Lemma blocks_ok : forall nn l, string_of_bytes l -> forall fuel k s data, done nn l k s ->
  data = skipn (128 * k) l -> data <> [] -> (length data <= fuel)%nat ->
  exists k' s', blake2b_blocks fuel s data = (s', skipn (128 * k') l) /\ done nn l k' s'
    /\ b2_buf s' = b2_buf s /\ b2_buflen s' = b2_buflen s
    /\ (128 * k' < length l <= 128 * k' + 128)%nat.
Proof.
  intros nn l Hl. induction fuel as [|fuel IH]; intros k s data D Hd Hne Hf.
  - destruct data; [contradiction Hne; reflexivity|cbn in Hf; lia].
  - cbn [blake2b_blocks].
    assert (Ld : length data = (length l - 128 * k)%nat) by (rewrite Hd; apply skipn_length).
    assert (Lp : (0 < length data)%nat) by (destruct data; [contradiction Hne; reflexivity|cbn; lia]).
    destruct (N.ltb_spec 128 (blen data)) as [G|G]; unfold blen in G.
    + destruct (done_block nn l k s (firstn 128 data) D Hl ltac:(lia) ltac:(rewrite Hd; reflexivity)) as (D1 & B1 & B2).
      set (s1 := blake2b_compress (blake2b_increment_counter s 128) (firstn 128 data)) in *. clearbody s1.
      destruct (IH (S k) s1 (skipn 128 data) D1) as (k' & s' & E & D' & B3 & B4 & R).
      * rewrite Hd, skipn_skipn'. f_equal. lia.
      * intro Z. apply (f_equal (@length N)) in Z. rewrite skipn_length in Z. cbn in Z. lia.
      * rewrite skipn_length. lia.
      * exists k', s'. rewrite E, B3, B4, B1, B2. split; [reflexivity|]. split; [exact D'|]. split; [reflexivity|]. split; [reflexivity|exact R].
    + exists k, s. rewrite Hd. split; [reflexivity|]. split; [exact D|]. split; [reflexivity|]. split; [reflexivity|]. lia.
Qed.

(** The invariant of a context that was fed [l]. *)
Definition holds (nn : N) (l : bytes) (s : b2state) : Prop :=
  exists k, done nn l k s /\ (128 * k <= length l <= 128 * k + 128)%nat /\ (k = 0%nat \/ (128 * k < length l)%nat)
    /\ b2_buflen s = N.of_nat (length l - 128 * k)
    /\ firstn (length l - 128 * k) (b2_buf s) = skipn (128 * k) l.

Lemma done_ext : forall nn l c k s, done nn l k s -> (128 * k <= length l)%nat -> done nn (l ++ c) k s.
Proof.
  intros nn l c k s [H1 H2 H3 H4 H5 H6 H7 H8] Hk. split; [rewrite (absorbed_app nn l c k Hk); exact H1|exact H2|exact H3|exact H4|exact H5|exact H6|exact H7|exact H8].
Qed.
Lemma put_ok : forall m i d, (length i + length d <= length m)%nat -> firstn (length i) m = i ->
  exists m', mem_put m (N.of_nat (length i)) d = Some m' /\ length m' = length m /\ firstn (length i + length d) m' = i ++ d.
Proof.
  intros m i d H Hi. unfold mem_put, blen. replace (N.of_nat (length m) <? N.of_nat (length i) + N.of_nat (length d)) with false by lia.
  eexists. split; [reflexivity|]. rewrite Nat2N.id, Hi. split.
  - rewrite !app_length, skipn_length. lia.
  - rewrite app_assoc. rewrite <- app_length. rewrite firstn_app, firstn_all, Nat.sub_diag.
    change (firstn 0 (skipn (length i + length d) m)) with (@nil N). apply app_nil_r.
Qed.

Lemma update_ok : forall nn l c s, holds nn l s -> string_of_bytes l -> string_of_bytes c ->
  exists s', blake2b_ref_update s c = ChkOk s' /\ holds nn (l ++ c) s'.
Proof.
  intros nn l c s (k & D & R1 & R2 & Bl & Bf) Hl Hc. unfold blake2b_ref_update.
  destruct (N.ltb_spec 0 (blen c)) as [P|P]; unfold blen in P.
  2: { exists s. split; [reflexivity|]. destruct c; [|cbn in P; lia]. rewrite app_nil_r.
       exists k. split; [exact D|]. split; [lia|]. split; [exact R2|]. split; [exact Bl|exact Bf]. }
  assert (Hlc : string_of_bytes (l ++ c)) by (apply Forall_app; split; assumption).
  set (i := skipn (128 * k) l) in *. assert (Li : length i = (length l - 128 * k)%nat) by apply skipn_length.
  rewrite <- Li in Bl, Bf. rewrite Bl.
  assert (Es : skipn (128 * k) (l ++ c) = i ++ c).
  { rewrite skipn_app. replace (128 * k - length l)%nat with 0%nat by lia. reflexivity. }
  destruct (N.ltb_spec (128 - N.of_nat (length i)) (blen c)) as [G|G]; unfold blen in G.
  - set (n := N.to_nat (128 - N.of_nat (length i))). assert (En : n = (128 - length i)%nat) by lia. clearbody n.
    destruct (put_ok (b2_buf s) i (firstn n c)) as (m' & Em & Lm & Fm).
    { rewrite firstn_length, (d_buf _ _ _ _ D). lia. }
    { exact Bf. }
    unfold b2_copy at 1. cbn [b2_set_buflen b2_buf b2_h b2_t0 b2_t1 b2_f0 b2_f1 b2_outlen b2_buflen]. rewrite Em.
    cbn [blake2b_increment_counter b2_buf].
    rewrite firstn_length in Fm. replace (length i + Nat.min n (length c))%nat with 128%nat in Fm by lia.
    rewrite firstn_all2 in Fm by (rewrite Lm, (d_buf _ _ _ _ D); lia).
    set (s0 := mk_b2 (b2_h s) (b2_t0 s) (b2_t1 s) (b2_f0 s) (b2_f1 s) m' 0 (b2_outlen s)).
    assert (D0 : done nn (l ++ c) k s0).
    { apply done_ext with (c := c) in D; [|lia]. destruct D as [H1 H2 H3 H4 H5 H6 H7 H8]. split; [exact H1|exact H2|exact H3|exact H4|exact H5|exact H6|cbn [s0 b2_buf]; lia|exact H8]. }
    destruct (done_block nn (l ++ c) k s0 m' D0 Hlc) as (D1 & B1 & B2).
    { rewrite app_length. lia. }
    { rewrite Fm, Es, firstn_app. rewrite (firstn_all2 i) by lia. rewrite En. reflexivity. }
    change (blake2b_increment_counter s0 128) with
      (mk_b2 (b2_h s) (u64 (b2_t0 s + 128)) (u64 (b2_t1 s + (if u64 (b2_t0 s + 128) <? 128 then 1 else 0))) (b2_f0 s) (b2_f1 s) m' 0 (b2_outlen s)) in *.
    set (s1 := blake2b_compress _ m') in *. clearbody s1.
    destruct (blocks_ok nn (l ++ c) Hlc (length c) (S k) s1 (skipn n c) D1) as (k' & s' & E & D' & B3 & B4 & R).
    { replace (128 * S k)%nat with (128 * k + 128)%nat by lia. rewrite <- skipn_skipn', Es, skipn_app.
      rewrite (skipn_all2 i) by lia. rewrite En. reflexivity. }
    { intro Z. apply (f_equal (@length N)) in Z. rewrite skipn_length in Z. cbn in Z. lia. }
    { rewrite skipn_length. lia. }
    rewrite E. rewrite B4, B2. cbn [s0 b2_buflen]. unfold b2_copy. 
    assert (L' : length (skipn (128 * k') (l ++ c)) = (length (l ++ c) - 128 * k')%nat) by apply skipn_length.
    destruct (put_ok (b2_buf s') [] (skipn (128 * k') (l ++ c))) as (m2 & E2 & Lm2 & F2).
    { rewrite L', (d_buf _ _ _ _ D'). cbn [length]. lia. }
    { reflexivity. }
    change (N.of_nat (length (@nil N))) with 0 in E2. rewrite E2.
    eexists. split; [reflexivity|]. exists k'.
    split; [|split; [lia|split; [right; lia|]]].
    + destruct D' as [H1 H2 H3 H4 H5 H6 H7 H8]. split; [exact H1|exact H2|exact H3|exact H4|exact H5|exact H6|cbn [b2_set_buflen b2_buf]; lia|exact H8].
    + cbn [b2_set_buflen b2_buflen b2_buf]. rewrite B4, B2. cbn [s0 b2_buflen].
      unfold blen. rewrite L'. split; [lia|]. rewrite <- L'. exact F2.
  - unfold b2_copy. rewrite Bl. 
    destruct (put_ok (b2_buf s) i c) as (m2 & E2 & Lm2 & F2).
    { rewrite (d_buf _ _ _ _ D). lia. }
    { exact Bf. }
    rewrite E2. eexists. split; [reflexivity|]. exists k.
    split; [|rewrite app_length; split; [lia|split; [destruct R2; [left; assumption|right; lia]|]]].
    + apply done_ext with (c := c) in D; [|lia]. destruct D as [H1 H2 H3 H4 H5 H6 H7 H8]. split; [exact H1|exact H2|exact H3|exact H4|exact H5|exact H6|cbn [b2_set_buflen b2_buf]; lia|exact H8].
    + cbn [b2_set_buflen b2_buflen b2_buf]. rewrite Es. unfold blen. split; [lia|].
      rewrite <- F2. f_equal. lia.
Qed.

Lemma init_ok : forall nn s, blake2b_ref_init nn = Some s -> nn <= 64 /\ holds nn [] s.
Proof.
  intros nn s H. unfold blake2b_ref_init in H.
  destruct (N.eqb_spec nn 0) as [|Hz]; [discriminate H|]. destruct (N.ltb_spec 64 nn) as [|Hn]; [discriminate H|].
  cbn [orb] in H. apply (f_equal (fun o => match o with Some x => x | None => s end)) in H. cbv beta iota in H.
  split; [exact Hn|]. subst s.
  assert (En : u8 nn = nn) by (apply N.mod_small; change two8 with 256; lia).
  unfold blake2b_param. rewrite En.
  assert (Hp : string_of_bytes ([nn; 0; 1; 1] ++ repeat 0 60)).
  { apply Forall_app. split; [repeat constructor; lia|]. apply Forall_forall. intros x Hx. apply repeat_spec in Hx. subst x. reflexivity. }
  assert (Hm : map (fun i => N.lxor (nth i blake2b_IV 0) (load64 (skipn (8 * i) ([nn; 0; 1; 1] ++ repeat 0 60)))) (seq 0 8) = h0 nn).
  { etransitivity; [apply map_ext_in; intros i Hi; apply in_seq in Hi;
      rewrite (load64_le (skipn (8 * i) ([nn; 0; 1; 1] ++ repeat 0 60)));
      [reflexivity|apply skipn_bytes; exact Hp|rewrite skipn_length; cbn [app length repeat]; lia]|].
    unfold h0. assert (E0 : N.lxor 0x01010000 nn = le [nn; 0; 1; 1; 0; 0; 0; 0]).
    { cbn [le]. rewrite N.lxor_comm. change 0x01010000 with (N.shiftl 257 16). rewrite N.lxor_lor.
      - rewrite lor_shift; [|change (2 ^ 16) with 65536; lia]. change (2 ^ 16) with 65536. lia.
      - apply N.bits_inj. intro n. rewrite N.land_spec, N.bits_0. destruct (N.lt_ge_cases n 16) as [L|L].
        + rewrite (N.shiftl_spec_low _ _ _ L). apply Bool.andb_false_r.
        + rewrite (N.bits_above_log2 nn n); [reflexivity|].
          assert (Hl : N.log2 nn < 16) by (apply N.log2_lt_pow2; [lia|change (2 ^ 16) with 65536; lia]). lia. }
    rewrite E0. reflexivity. }
  exists 0%nat. split.
  - split; cbn [b2_h b2_t0 b2_t1 b2_f0 b2_f1 b2_buf b2_outlen].
    + rewrite Hm. reflexivity.
    + rewrite Hm. apply at_wok; [split; [reflexivity|repeat constructor]|].
      apply lxor_word; [reflexivity|]. apply lxor_word; [reflexivity|].
      apply N.lt_trans with 65; [lia|reflexivity].
    + reflexivity. + reflexivity. + reflexivity. + reflexivity. + reflexivity. + reflexivity.
  - split; [cbn; lia|]. split; [left; reflexivity|]. split; reflexivity.
Qed.

Lemma count_blocks : forall (l : bytes) k, (128 * k <= length l <= 128 * k + 128)%nat -> (k = 0%nat \/ (128 * k < length l)%nat) ->
  (blocks_count l - 1 = k)%nat.
Proof.
  intros l k H1 H2. unfold blocks_count.
  destruct (Nat.eq_dec (length l) 0) as [Z|Z].
  - rewrite Z in *. replace k with 0%nat by lia. reflexivity.
  - assert (E : Nat.div (length l + 127) 128 = S k).
    { symmetry. apply (Nat.div_unique _ _ _ (length l - 128 * k - 1)); lia. }
    rewrite E. lia.
Qed.
Lemma block_last : forall (l : bytes) k, (128 * k <= length l <= 128 * k + 128)%nat ->
  block l k = skipn (128 * k) l ++ repeat 0 (128 - (length l - 128 * k)).
Proof.
  intros l k H. unfold block. rewrite firstn_all2 by (rewrite skipn_length; lia). rewrite skipn_length. reflexivity.
Qed.

Lemma final_ok : forall nn l s outlen, holds nn l s -> string_of_bytes l -> nn <= outlen ->
  exists s', blake2b_ref_final s outlen = ChkOk (s', blake2b nn l) /\ b2_f0 s' <> 0.
Proof.
  intros nn l s outlen (k & D & R1 & R2 & Bl & Bf) Hl Ho. unfold blake2b_ref_final.
  rewrite (d_out _ _ _ _ D). replace (outlen <? nn) with false by lia. rewrite (d_f0 _ _ _ _ D).
  change (negb (0 =? 0)) with false. cbv iota zeta.
  set (i := skipn (128 * k) l) in *. assert (Li : length i = (length l - 128 * k)%nat) by apply skipn_length.
  rewrite <- Li in Bl, Bf.
  destruct (put_ok (b2_buf s) i (repeat 0 (N.to_nat (128 - N.of_nat (length i))))) as (m' & Em & Lm & Fm).
  { rewrite repeat_length, (d_buf _ _ _ _ D). lia. }
  { exact Bf. }
  unfold b2_copy. cbn [blake2b_increment_counter b2_buf b2_buflen]. rewrite Bl, Em.
  rewrite repeat_length in Fm. rewrite firstn_all2 in Fm by (rewrite Lm, (d_buf _ _ _ _ D); lia).
  assert (Eb : m' = block l k).
  { rewrite (block_last l k R1), Fm. fold i. do 2 f_equal. lia. }
  cbn [b2_h b2_t0 b2_t1 b2_f0 b2_f1 b2_buf b2_buflen b2_outlen].
  destruct (counter (N.of_nat (128 * k)) (N.of_nat (length i))) as [C0 C1].
  { apply N.lt_trans with 129; [lia|reflexivity]. }
  cbv zeta in C1. assert (ET : N.of_nat (128 * k) + N.of_nat (length i) = N.of_nat (length l)) by lia. rewrite ET in C0, C1.
  set (s1 := mk_b2 _ _ _ _ _ m' _ _).
  destruct (compress_F s1 m' (N.of_nat (length l)) true) as [E Hw].
  - exact (d_wok _ _ _ _ D).
  - rewrite Fm. apply Forall_app. split; [apply skipn_bytes; exact Hl|]. apply Forall_forall. intros x Hx. apply repeat_spec in Hx. subst x. reflexivity.
  - rewrite Lm. exact (d_buf _ _ _ _ D).
  - cbn [s1 b2_t0 blake2b_increment_counter]. rewrite (d_t0 _ _ _ _ D). exact C0.
  - cbn [s1 b2_t1 blake2b_increment_counter]. rewrite (d_t0 _ _ _ _ D), (d_t1 _ _ _ _ D). exact C1.
  - reflexivity.
  - exact (d_f1 _ _ _ _ D).
  - rewrite E. cbn [b2_h b2_outlen].
    match goal with |- exists s', ChkOk (?x, _) = _ /\ _ => exists x end. split; [|cbn [b2_f0 s1]; discriminate].
    f_equal. f_equal. cbn [s1 b2_outlen b2_h blake2b_increment_counter]. rewrite (d_out _ _ _ _ D).
    unfold blake2b. cbv zeta. rewrite (count_blocks l k R1 R2).
    change (fold_left (fun h i0 => F h (block_words l i0) (N.of_nat (128 * (i0 + 1))) false) (seq 0 k) (h0 nn)) with (absorbed nn l k).
    rewrite <- (d_h _ _ _ _ D), Eb. f_equal. 
    assert (Q : forall x, flat_map store64 x = flat_map (word_le 8) x).
    { intro x. apply flat_map_ext. exact store64_le. }
    rewrite Q. reflexivity.
Qed.

(** ** helpers/blake2b.c *)
Lemma concat_bytes : forall pieces, Forall string_of_bytes pieces -> string_of_bytes (concat pieces).
Proof. intros p H. unfold string_of_bytes. induction H as [|a p Ha Hp IH]; [constructor|]. cbn [concat]. apply Forall_app. split; assumption. Qed.

Lemma upd_ok : forall l c s, holds 32 l s -> string_of_bytes l -> string_of_bytes c ->
  exists s', blake2b_update s c = ChkOk s' /\ holds 32 (l ++ c) s'.
Proof.
  intros l c s H Hl Hc. destruct (update_ok 32 l c s H Hl Hc) as (s' & E & H').
  exists s'. split; [|exact H']. unfold blake2b_update, cx_hash_no_throw. rewrite E. reflexivity.
Qed.
Lemma fed_exists : forall pieces l s, holds 32 l s -> string_of_bytes l -> Forall string_of_bytes pieces ->
  exists s', fed s pieces s'.
Proof.
  induction pieces as [|p t IH]; intros l s H Hl Hp; [exists s; constructor|].
  inversion Hp as [|? ? Hp1 Hp2]; subst. destruct (upd_ok l p s H Hl Hp1) as (s1 & E & H1).
  destruct (IH (l ++ p) s1 H1 ltac:(apply Forall_app; split; assumption) Hp2) as (s' & Hs').
  exists s'. econstructor; eassumption.
Qed.
Lemma fed_holds : forall s pieces s', fed s pieces s' -> forall l, holds 32 l s -> string_of_bytes l -> Forall string_of_bytes pieces ->
  holds 32 (l ++ concat pieces) s'.
Proof.
  induction 1 as [s|s s1 s2 p t E H IH]; intros l Hh Hl Hp.
  - cbn [concat]. rewrite app_nil_r. exact Hh.
  - inversion Hp as [|? ? Hp1 Hp2]; subst. destruct (upd_ok l p s Hh Hl Hp1) as (s1' & E' & H1).
    assert (s1' = s1) as -> by congruence.
    cbn [concat]. rewrite app_assoc. apply IH; [exact H1|apply Forall_app; split; assumption|exact Hp2].
Qed.
Lemma init_256 : exists s, blake2b_256_init = Some s /\ holds 32 [] s.
Proof.
  destruct (blake2b_ref_init 32) as [s|] eqn:E.
  - exists s. split; [exact E|]. apply (init_ok 32 s E).
  - exfalso. revert E. unfold blake2b_ref_init. change ((32 =? 0) || (64 <? 32)) with false. cbv iota zeta. discriminate.
Qed.
Lemma finalize_ok : forall l s, holds 32 l s -> string_of_bytes l ->
  exists s', blake2b_256_finalize s = ChkOk (s', blake2b 32 l) /\ b2_f0 s' <> 0.
Proof.
  intros l s H Hl. destruct (update_ok 32 l [] s H Hl (Forall_nil _)) as (s1 & E1 & H1). rewrite app_nil_r in H1.
  destruct (final_ok 32 l s1 32 H1 Hl (N.le_refl _)) as (s' & E & Hf). exists s'. split; [|exact Hf].
  unfold blake2b_256_finalize, cx_hash_no_throw. rewrite E1, E. reflexivity.
Qed.
Lemma finalize_closed : forall s, b2_f0 s <> 0 -> blake2b_256_finalize s = ChkFail.
Proof.
  intros s H. unfold blake2b_256_finalize, cx_hash_no_throw. 
  change (blake2b_ref_update s []) with (ChkOk s). unfold blake2b_ref_final.
  case_if; [reflexivity|]. replace (b2_f0 s =? 0) with false by (symmetry; apply N.eqb_neq; exact H). reflexivity.
Qed.

Lemma stream_ok : forall pieces, Forall string_of_bytes pieces ->
  exists s0 s1 s2, blake2b_256_init = Some s0 /\ fed s0 pieces s1
    /\ blake2b_256_finalize s1 = ChkOk (s2, blake2b 32 (concat pieces))
    /\ blake2b_256_finalize s2 = ChkFail.
Proof.
  intros pieces Hp. destruct init_256 as (s0 & E0 & H0).
  destruct (fed_exists pieces [] s0 H0 (Forall_nil _) Hp) as (s1 & H1).
  pose proof (fed_holds _ _ _ H1 [] H0 (Forall_nil _) Hp) as Hh. cbn [app] in Hh.
  destruct (finalize_ok _ _ Hh (concat_bytes _ Hp)) as (s2 & E2 & Hf).
  exists s0, s1, s2. split; [exact E0|]. split; [exact H1|]. split; [exact E2|]. apply finalize_closed. exact Hf.
Qed.
Lemma fed_det : forall s pieces s1 s2, fed s pieces s1 -> fed s pieces s2 -> s1 = s2.
Proof.
  intros s pieces s1 s2 H. revert s2. induction H as [|s s1 s' p t E H IH]; intros s2 H2; inversion H2; subst; [reflexivity|].
  apply IH. assert (s1 = s3) as -> by congruence. assumption.
Qed.
Lemma once_ok : forall data, string_of_bytes data -> blake2b_256 data = ChkOk (blake2b 32 data).
Proof.
  intros data H. unfold blake2b_256, blake2b_ref. destruct init_256 as (s0 & E0 & H0).
  unfold blake2b_256_init in E0. change (256 / 8) with 32 in E0. rewrite E0.
  destruct (update_ok 32 [] data s0 H0 (Forall_nil _) H) as (s1 & E1 & H1). rewrite E1.
  destruct (final_ok 32 data s1 32 H1 H (N.le_refl _)) as (s2 & E2 & _). rewrite E2. reflexivity.
Qed.

(** ** Sizes *)
#[local] Transparent F.
Lemma F_length : forall h m t last, length (F h m t last) = 8%nat.
Proof. intros. unfold F. cbv zeta. rewrite map_length. apply seq_length. Qed.
#[local] Opaque F.
Lemma word_le_length : forall n w, length (word_le n w) = n.
Proof. induction n as [|n IH]; intro w; cbn [word_le length]; [reflexivity|]. rewrite IH. reflexivity. Qed.
Lemma word_le_bytes : forall n w, string_of_bytes (word_le n w).
Proof. induction n as [|n IH]; intro w; cbn [word_le]; constructor; [apply N.mod_upper_bound; discriminate|apply IH]. Qed.
Lemma words_length : forall l, length (flat_map (word_le 8) l) = (8 * length l)%nat.
Proof. induction l as [|w l IH]; [reflexivity|]. cbn [flat_map length]. rewrite app_length, word_le_length, IH. lia. Qed.
Lemma blake2b_length : forall nn msg, nn <= 64 -> length (blake2b nn msg) = N.to_nat nn.
Proof. intros nn msg H. unfold blake2b. cbv zeta. rewrite firstn_length, words_length, F_length. lia. Qed.
Lemma blake2b_bytes : forall nn msg, string_of_bytes (blake2b nn msg).
Proof.
  intros nn msg. unfold blake2b. cbv zeta. apply firstn_bytes. set (l := F _ _ _ _). clearbody l.
  unfold string_of_bytes. induction l as [|w l IH]; [constructor|]. cbn [flat_map]. apply Forall_app. split; [apply word_le_bytes|exact IH].
Qed.
Lemma digest_ok : forall msg, length (blake2b 32 msg) = 32%nat /\ string_of_bytes (blake2b 32 msg).
Proof. intro msg. split; [apply blake2b_length; discriminate|apply blake2b_bytes]. Qed.
Lemma bytes_string : forall l, string_of_bytes l -> bytes_ok l = true.
Proof. induction 1 as [|b l Hb Hl IH]; [reflexivity|]. apply bytes_ok_cons. split; assumption. Qed.
Lemma digest_env : forall E, env_ok E ->
  env_ok (mk_env (blake2b 32) (e_hmac E) (e_derive E) (e_mulG E) (e_id_keep E)).
Proof.
  intros E [H1 H2 H3 H4 H5 H6 H7]. split; cbn [e_blake e_hmac e_derive e_mulG e_id_keep]; try assumption.
  - intro l. apply digest_ok.
  - intro l. apply bytes_string, digest_ok.
Qed.
