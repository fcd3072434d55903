(** Why an input frame (0x12) fails. *)
From Verif Require Import Base SafeInt Gve TxTable TxBox TxInput TxFull Amounts OutputInfo Env InputFrame UiFlow P2pkOp App Lib SpecVlq
  CodecProofs SpecTree SpecTrace SpecTx SpecAmounts BoxProofs AmountProofs SignInv SignInput SignData SignOutput
  SpecApdu SpecScreen SpecRequest SpecSign SpecRules RulesProofs SpecAccept SpecStatus AcceptInput AcceptFrame StatusSign.
#[local] Arguments N.eqb : simpl never.
#[local] Arguments N.ltb : simpl never.
#[local] Arguments N.leb : simpl never.
#[local] Arguments N.sub : simpl never.
#[local] Arguments blen : simpl never.
#[local] Arguments num : simpl never.
#[local] Arguments slice : simpl never.

(** ** Amounts *)

Lemma add_input_token_why : forall c b id v r c',
  am_rel c b -> (forall x, (0 <= b x)%Z) -> v < two64 -> amounts_add_input_token c id v = (r, c') ->
  r = R_OK \/ r = R_TOO_MANY_TOKENS /\ (20 < length (add_id (am_table c) id))%nat \/
  r = R_U64_OVERFLOW /\ (2 ^ 63 <= b id + Z.of_N v)%Z.
Proof.
  intros c b id v r c' R Hpos Hv H.
  destruct (Z_lt_le_dec (b id + Z.of_N v) (2 ^ 63)) as [Lb|Lb].
  - destruct (le_lt_dec (length (add_id (am_table c) id)) 20) as [Lt|Lt].
    + destruct (add_input_token_succ c b id v R Hpos Hv Lb Lt) as [c2 Hc]. left. congruence.
    + right. left. split; [|exact Lt]. unfold amounts_add_input_token in H.
      destruct (find_spec (am_table c) id (ar_table _ _ R)) as [(Hi & Hl & Hn & Hf & Hin)|[Hi Hn]].
      { exfalso. assert (Ha : add_id (am_table c) id = am_table c).
        { unfold add_id. replace (existsb (bytes_eqb id) (am_table c)) with true; [reflexivity|]. symmetry. apply existsb_in. exact Hin. }
        rewrite Ha in Lt. pose proof (ar_table _ _ R). lia. }
      rewrite Hi, N.eqb_refl in H. unfold token_table_add_token in H.
      assert (Ha : add_id (am_table c) id = am_table c ++ [id]).
      { unfold add_id. destruct (existsb (bytes_eqb id) (am_table c)) eqn:X; [|reflexivity]. apply existsb_in in X. contradiction. }
      rewrite Ha, app_length in Lt. cbn [length] in Lt.
      replace (TOKEN_MAX_COUNT <=? blen (am_table c)) with true in H by (symmetry; apply N.leb_le; unfold TOKEN_MAX_COUNT, blen; lia).
      rewrite !N.eqb_refl in H. congruence.
  - unfold amounts_add_input_token in H. pose proof (Hpos id) as Hp.
    assert (Eok : forall z, (z = b id)%Z -> i64_ok (z + Z.of_N v) = false).
    { intros z ->. unfold i64_ok. apply andb_false_iff. right. apply Z.leb_gt. lia. }
    destruct (find_spec (am_table c) id (ar_table _ _ R)) as [(Hi & Hl & Hn & Hf & Hin)|[Hi Hn]].
    + right. right. split; [|exact Lb]. set (i := token_table_find_token_index (am_table c) id) in *.
      rewrite (proj2 (N.eqb_neq i INDEX_NOT_EXIST)) in H by assumption.
      rewrite (proj2 (N.eqb_neq i INDEX_NOT_EXIST)) in H by assumption.
      pose proof (ar_table _ _ R). pose proof (ar_len _ _ R).
      rewrite tok_get_nth in H by lia.
      assert (Es : nth (N.to_nat i) (am_tokens c) 0%Z = b id).
      { rewrite (ar_slot _ _ R) by lia. rewrite Hf, Hn. reflexivity. }
      rewrite checked_add_i64_exact in H; [|rewrite Es; apply R|rewrite Es; lia|assumption].
      rewrite (Eok _ Es) in H. congruence.
    + rewrite Hi, N.eqb_refl in H. unfold token_table_add_token in H.
      assert (Ha : add_id (am_table c) id = am_table c ++ [id]).
      { unfold add_id. destruct (existsb (bytes_eqb id) (am_table c)) eqn:X; [|reflexivity]. apply existsb_in in X. contradiction. }
      destruct (N.leb_spec TOKEN_MAX_COUNT (blen (am_table c))) as [Lt|Lt].
      * right. left. rewrite !N.eqb_refl in H. split; [congruence|]. rewrite Ha, app_length. cbn [length]. unfold TOKEN_MAX_COUNT, blen in Lt. lia.
      * right. right. split; [|exact Lb].
        assert (Hb' : blen (am_table c) <> INDEX_NOT_EXIST) by (unfold blen, INDEX_NOT_EXIST, TOKEN_MAX_COUNT in *; lia).
        rewrite (proj2 (N.eqb_neq _ _) Hb'), (proj2 (N.eqb_neq _ _) Hb') in H.
        assert (Lt' : (length (am_table c) < 20)%nat) by (unfold blen, TOKEN_MAX_COUNT in *; lia).
        assert (Z0 : nth (length (am_table c)) (am_tokens c) 0%Z = 0%Z).
        { rewrite (ar_slot _ _ R) by lia. rewrite first_out by lia. reflexivity. }
        pose proof (ar_len _ _ R) as Hlen.
        assert (Eb : N.to_nat (blen (am_table c)) = length (am_table c)) by (unfold blen; lia).
        rewrite Eb in H.
        assert (Es : set_nth (length (am_table c)) 0%Z (am_tokens c) = am_tokens c).
        { rewrite <- Z0 at 1. apply set_nth_id. lia. }
        cbn [am_tokens am_set_tokens] in H. rewrite Es in H.
        rewrite tok_get_nth in H by (rewrite Eb; lia). rewrite Eb, Z0 in H.
        rewrite checked_add_i64_exact in H; [|reflexivity|discriminate|assumption].
        rewrite Eok in H by (symmetry; apply R; assumption). congruence.
Qed.

Notation pair_of := (fun e => (slice 0 32 e, num 32 8 e)).
Lemma input_tokens_loop_why : forall fuel s tokens b r s', (length tokens < fuel)%nat ->
  bytes_ok tokens = true -> am_rel (fst (is_cb s)) b -> (forall x, (0 <= b x)%Z) ->
  input_tokens_loop (Some p2pk_input_token_cb) fuel s tokens = (r, s') ->
  r = R_OK \/
  (r = R_BAD_TOKEN_ID \/ r = R_BAD_TOKEN_VALUE) /\ ~ Forall (fun e => length e = 40%nat) (entries 40 tokens) \/
  exists es1 es2, entries 40 tokens = es1 ++ es2 /\ Forall (fun e => length e = 40%nat) es1 /\
    (r = R_TOO_MANY_TOKENS /\ (20 < length (fold_left add_id (map fst (map pair_of es1)) (am_table (fst (is_cb s)))))%nat \/
     r = R_U64_OVERFLOW /\ exists x, (2 ^ 63 <= b x + Z.of_N (amount_of x (map pair_of es1)))%Z).
Proof.
  induction fuel as [|k IH]; intros s tokens b r s' Hf Hok R Hpos H; [lia|]. cbn [input_tokens_loop] in H.
  destruct tokens as [|x tokens]; [left; congruence|]. remember (x :: tokens) as inp eqn:Ei.
  assert (Li : (0 < length inp)%nat) by (subst; cbn; lia). clear Ei.
  rewrite (entries_ne 40 inp) by lia.
  destruct (le_lt_dec 32 (length inp)) as [L32|L32].
  2:{ right. left. rewrite read_bytes_short in H by exact L32. unfold input_res_error in H. split; [left; congruence|].
      intro F. apply Forall_inv in F. rewrite firstn_length in F. lia. }
  rewrite read_bytes_ex in H by (unfold ERGO_ID_LEN; lia). unfold ERGO_ID_LEN in H.
  destruct (le_lt_dec 40 (length inp)) as [L|L].
  2:{ right. left. unfold read_u64 in H. destruct (read_be 8 (skipn 32 inp)) as [[w l]|] eqn:Rb.
      { apply read_be_spec in Rb as (b1 & D1 & L1 & _). apply (f_equal (@length N)) in D1. rewrite skipn_length, app_length in D1. lia. }
      unfold input_res_error in H. split; [right; congruence|]. intro F. apply Forall_inv in F. rewrite firstn_length in F. lia. }
  assert (L1 : length (firstn 40 inp) = 40%nat) by (apply firstn_length_le; lia).
  assert (S1 : slice 0 32 (firstn 40 inp) = slice 0 32 inp).
  { unfold slice. cbn [skipn]. rewrite firstn_firstn. reflexivity. }
  assert (S2 : num 32 8 (firstn 40 inp) = num 32 8 inp).
  { unfold num, slice. f_equal. rewrite skipn_firstn_comm. rewrite firstn_firstn. reflexivity. }
  unfold read_u64 in H. rewrite read_be_ex in H by (rewrite skipn_length; lia).
  assert (Sk : skipn 8 (skipn 32 inp) = skipn 40 inp) by (rewrite skipn_add; reflexivity).
  rewrite Sk in H.
  assert (Sn : num 0 8 (skipn 32 inp) = num 32 8 inp) by reflexivity.
  rewrite Sn in H. unfold p2pk_input_token_cb at 1 in H.
  assert (Bv : num 32 8 inp < two64) by (apply (num_bound 32 8); assumption).
  set (id := slice 0 32 inp) in *. set (v := num 32 8 inp) in *. clearbody v.
  destruct (amounts_add_input_token (fst (is_cb s)) id v) as [r1 a] eqn:Ha.
  assert (H' : (let s := mk_ins (is_in s) (is_hash s) (a, snd (is_cb s)) in
    match r1 with R_OK => input_tokens_loop (Some p2pk_input_token_cb) k s (skipn 40 inp) | _ => input_res_error s r1 end) = (r, s')).
  { rewrite <- H. unfold cbctx in *. rewrite Ha. reflexivity. }
  clear H. cbv zeta in H'.
  destruct (add_input_token_why _ _ _ _ _ _ R Hpos Bv Ha) as [E|[[E Q]|[E Q]]]; subst r1.
  - destruct (add_input_token_ok _ _ _ _ _ R Hpos Bv Ha) as (R' & F1 & F2 & F3).
    apply (IH _ _ (upd b id (Z.of_N v))) in H'.
    + cbn [is_cb fst] in H'. rewrite F3 in H'. destruct H' as [H|[[H1 H2]|(es1 & es2 & H1 & H2 & H3)]].
      * left. exact H.
      * right. left. split; [exact H1|]. intro F. apply H2. exact (Forall_inv_tail F).
      * right. right. exists (firstn 40 inp :: es1), es2. rewrite H1. split; [reflexivity|]. split; [constructor; assumption|].
        cbn [map fst fold_left]. rewrite S1, S2. fold id. destruct H3 as [[H3 H4]|[H3 (y & H4)]]; [left; split; assumption|right].
        split; [exact H3|]. exists y. rewrite amount_of_cons. unfold upd in H4. destruct (bytes_eqb id y); lia.
    + rewrite skipn_length. lia.
    + rewrite <- (firstn_skipn 40 inp), bytes_ok_app in Hok. apply andb_true_iff in Hok. tauto.
    + exact R'.
    + intro y. unfold upd. specialize (Hpos y). destruct (bytes_eqb id y); lia.
  - right. right. exists [firstn 40 inp], (entries 40 (skipn 40 inp)). split; [reflexivity|]. split; [constructor; [assumption|constructor]|].
    left. unfold input_res_error in H'. split; [congruence|]. cbn [map fst fold_left]. rewrite S1. exact Q.
  - right. right. exists [firstn 40 inp], (entries 40 (skipn 40 inp)). split; [reflexivity|]. split; [constructor; [assumption|constructor]|].
    right. unfold input_res_error in H'. split; [congruence|]. exists id. cbn [map]. rewrite S1, S2. fold id. rewrite amount_of_cons, bytes_eqb_refl. lia.
Qed.

(** ** Reading the frame *)

Lemma parse_frame_why : forall E key data e, bytes_ok data = true -> parse_input_frame E key data = Fail e ->
  layout_error E key 0x12 data e.
Proof.
  intros E key data e Hok H. cbv [layout_error]. set (m := frame_ntokens data).
  unfold parse_input_frame, input_frame_data_length in H.
  unfold FRAME_MIN_SIZE, FRAME_TOKEN_COUNT_POSITION, FRAME_PAIR_SIZE, FRAME_PREFIX_LEN, FRAME_SIGNATURE_LEN in H.
  destruct (N.ltb_spec (blen data) 59) as [L0|L0].
  { left. rewrite N.eqb_refl in H. split; [congruence|]. left. unfold blen in L0. lia. }
  assert (L59 : (59 <= length data)%nat) by (unfold blen in L0; lia).
  assert (Etc : num 42 1 data = nth 42 data 0) by (apply num1_nth; lia).
  assert (Btc : nth 42 data 0 < 256).
  { rewrite <- Etc. apply (num_bound 42 1 data Hok). }
  assert (Em : nth 42 data 0 mod 32 = N.of_nat m) by (unfold m, frame_ntokens; rewrite Etc; lia).
  set (tc := nth 42 data 0) in *.
  assert (E1 : u8 (tc * 40 + 43) <= 43 + 40 * N.of_nat m /\ u8 (tc * 40 + 43) <> 0 /\ ((m <= 4)%nat -> u8 (tc * 40 + 43) = 43 + 40 * N.of_nat m)).
  { unfold u8, two8. zify; Z.to_euclidean_division_equations; lia. }
  assert (E2 : u8 (tc * 40) <= 40 * N.of_nat m).
  { unfold u8, two8. zify; Z.to_euclidean_division_equations; lia. }
  set (n1 := u8 (tc * 40 + 43)) in *. destruct E1 as (E1 & E1' & E1''). clearbody n1.
  destruct (N.ltb_spec (blen data) (n1 + N.of_nat 16)) as [L1|L1].
  { left. rewrite N.eqb_refl in H. split; [congruence|]. left. unfold blen in L1. lia. }
  rewrite (proj2 (N.eqb_neq _ _) E1') in H.
  destruct (bytes_eqb (firstn 16 (e_hmac E key (firstn (N.to_nat n1) data))) (firstn 16 (skipn (N.to_nat n1) data))) eqn:E3; cbn [negb] in H.
  2:{ right. split; [congruence|]. destruct (le_lt_dec m 4) as [Lm|Lm]; [right|left; exact Lm].
      specialize (E1'' Lm). subst n1. replace (N.to_nat (43 + 40 * N.of_nat m)) with (43 + 40 * m)%nat in E3 by lia.
      intro K. unfold frame_tag, frame_body, slice in K. fold m in K. cbn [skipn] in K. rewrite K, bytes_eqb_refl in E3. discriminate. }
  left. rewrite read_bytes_ex in H by (unfold ERGO_ID_LEN; lia). unfold ERGO_ID_LEN in H. cbn [rd bind] in H.
  unfold read_u8, read_u64, read_u32 in H.
  rewrite read_be_ex in H by (rewrite skipn_length; lia). cbn [rd bind] in H. rewrite skipn_add in H.
  rewrite read_be_ex in H by (rewrite skipn_length; lia). cbn [rd bind] in H. rewrite skipn_add in H.
  rewrite read_be_ex in H by (rewrite skipn_length; lia). cbn [rd bind] in H. rewrite skipn_add in H.
  rewrite read_be_ex in H by (rewrite skipn_length; lia). cbn [rd bind] in H. rewrite skipn_add in H.
  change (num 0 1 (skipn (32 + 1) data)) with (num 33 1 data) in H.
  change (num 0 1 (skipn (32 + 1 + 1 + 8) data)) with (num 42 1 data) in H. rewrite Etc in H. fold tc in H.
  set (n2 := u8 (tc * 40)) in *. clearbody n2.
  destruct (N.ltb_spec (blen (skipn (32 + 1 + 1 + 8 + 1) data)) (n2 + N.of_nat 16)) as [L2|L2].
  { split; [congruence|]. left. unfold blen in L2. rewrite skipn_length in L2. lia. }
  destruct (N.eqb_spec (num 33 1 data) 0) as [Z|Z]; [|discriminate]. rewrite skipn_add in H.
  destruct (read_be 4 (skipn (32 + 1 + 1 + 8 + 1 + (N.to_nat n2 + 16)) data)) as [[w l]|] eqn:Rb; [discriminate|].
  split; [cbn [rd bind] in H; congruence|]. right. split; [exact Z|].
  destruct (le_lt_dec (43 + 40 * m + 16 + 4) (length data)) as [L|L]; [|exact L]. exfalso.
  rewrite read_be_ex in Rb by (rewrite skipn_length; lia). discriminate.
Qed.

Record frame_read (data : bytes) (f : input_frame) : Prop := mk_fread {
  fr_id : if_box_id f = slice 0 32 data;
  fr_count : if_frames_count f = num 32 1 data;
  fr_index : if_index f = num 33 1 data;
  fr_value : if_value f = num 34 8 data;
  fr_toks : exists k, (k <= 40 * frame_ntokens data)%nat /\ if_tokens f = firstn k (skipn 43 data);
  fr_small : (frame_ntokens data <= 4)%nat ->
    (43 + 40 * frame_ntokens data + 16 <= length data)%nat /\ if_tokens f = slice 43 (40 * frame_ntokens data) data /\
    (num 33 1 data = 0 -> if_ext_len f = num (43 + 40 * frame_ntokens data + 16) 4 data) }.
Lemma parse_frame_read : forall E key data f, bytes_ok data = true -> parse_input_frame E key data = Ok f -> frame_read data f.
Proof.
  intros E key data f Hok H. set (m := frame_ntokens data).
  unfold parse_input_frame, input_frame_data_length in H.
  unfold FRAME_MIN_SIZE, FRAME_TOKEN_COUNT_POSITION, FRAME_PAIR_SIZE, FRAME_PREFIX_LEN, FRAME_SIGNATURE_LEN in H.
  destruct (N.ltb_spec (blen data) 59) as [L0|L0]; [rewrite N.eqb_refl in H; discriminate|].
  assert (L59 : (59 <= length data)%nat) by (unfold blen in L0; lia).
  destruct (blen data <? u8 (nth 42 data 0 * 40 + 43) + N.of_nat 16); [rewrite N.eqb_refl in H; discriminate|].
  destruct (u8 (nth 42 data 0 * 40 + 43) =? 0); [discriminate|].
  destruct (negb _); [discriminate|].
  assert (Etc : num 42 1 data = nth 42 data 0) by (apply num1_nth; lia).
  assert (Btc : num 42 1 data < 256) by apply (num_bound 42 1 data Hok).
  assert (Em : num 42 1 data mod 32 = N.of_nat m) by (unfold m, frame_ntokens; lia).
  rewrite read_bytes_ex in H by (unfold ERGO_ID_LEN; lia). unfold ERGO_ID_LEN in H. cbn [rd bind] in H.
  unfold read_u8, read_u64, read_u32 in H.
  rewrite read_be_ex in H by (rewrite skipn_length; lia). cbn [rd bind] in H. rewrite skipn_add in H.
  rewrite read_be_ex in H by (rewrite skipn_length; lia). cbn [rd bind] in H. rewrite skipn_add in H.
  rewrite read_be_ex in H by (rewrite skipn_length; lia). cbn [rd bind] in H. rewrite skipn_add in H.
  rewrite read_be_ex in H by (rewrite skipn_length; lia). cbn [rd bind] in H. rewrite skipn_add in H.
  change (num 0 1 (skipn (32 + 1) data)) with (num 33 1 data) in H.
  change (num 0 1 (skipn 32 data)) with (num 32 1 data) in H.
  change (num 0 8 (skipn (32 + 1 + 1) data)) with (num 34 8 data) in H.
  change (num 0 1 (skipn (32 + 1 + 1 + 8) data)) with (num 42 1 data) in H.
  set (tc := num 42 1 data) in *.
  assert (E2 : u8 (tc * 40) <= 40 * N.of_nat m /\ ((m <= 4)%nat -> u8 (tc * 40) = 40 * N.of_nat m)).
  { unfold u8, two8. zify; Z.to_euclidean_division_equations; lia. }
  set (n2 := u8 (tc * 40)) in *. destruct E2 as [E2 E3]. clearbody n2. change (32 + 1 + 1 + 8 + 1)%nat with 43%nat in H.
  destruct (N.ltb_spec (blen (skipn 43 data)) (n2 + N.of_nat 16)) as [L2|L2]; [discriminate|].
  assert (Q : exists x, f = mk_frame (slice 0 32 data) (num 32 1 data) (num 33 1 data) (num 34 8 data) (firstn (N.to_nat n2) (skipn 43 data)) x /\
    (num 33 1 data = 0 -> x = num (43 + N.to_nat n2 + 16) 4 data)).
  { destruct (N.eqb_spec (num 33 1 data) 0) as [Z|Z].
    - rewrite skipn_add in H. destruct (read_be 4 (skipn (43 + (N.to_nat n2 + 16)) data)) as [[w l]|] eqn:Rb; [|discriminate].
      cbn [rd bind] in H. exists w. split; [congruence|]. intros _. apply read_be_spec in Rb as (b & D & Lb & ->).
      unfold num, slice. rewrite Nat.add_assoc in D. rewrite D, firstn_app, Lb, Nat.sub_diag, firstn_O, app_nil_r.
      rewrite firstn_all2 by lia. reflexivity.
    - exists 0. split; [congruence|]. contradiction. }
  destruct Q as (x & -> & Hx). constructor; try reflexivity; cbn [if_tokens if_ext_len].
  - exists (N.to_nat n2). split; [fold m; lia|reflexivity].
  - fold m. intro Lm. specialize (E3 Lm). replace (N.to_nat n2) with (40 * m)%nat in * by lia.
    split; [|split; [reflexivity|exact Hx]]. unfold blen in L2. rewrite skipn_length in L2. lia.
Qed.

Lemma entries_prefix : forall n es1 a b es2, (0 < n)%nat -> entries n a = es1 ++ es2 -> Forall (fun e => length e = n) es1 ->
  exists es3, entries n (a ++ b) = es1 ++ es3.
Proof.
  intros n es1. induction es1 as [|e es1 IH]; intros a b es2 Hn He F; [eexists; reflexivity|].
  destruct a as [|x a]; [discriminate|]. remember (x :: a) as y eqn:Ey.
  assert (Ly : (0 < length y)%nat) by (subst; cbn; lia). clear Ey.
  rewrite (entries_ne n y Hn Ly) in He. cbn [app] in He. apply Forall_cons_iff in F as [F1 F].
  assert (He1 : firstn n y = e) by congruence. assert (He2 : entries n (skipn n y) = es1 ++ es2) by congruence.
  destruct (IH _ b _ Hn He2 F) as [es3 H3]. exists es3.
  rewrite <- (firstn_skipn n y) at 1. rewrite He1, <- app_assoc, entries_app by assumption. rewrite H3. reflexivity.
Qed.
Lemma frame_tokens_prefix : forall data f es1 es2, frame_read data f -> entries 40 (if_tokens f) = es1 ++ es2 ->
  Forall (fun e => length e = 40%nat) es1 -> exists l, frame_tokens data = map pair_of es1 ++ l.
Proof.
  intros data f es1 es2 R He F. destruct (fr_toks _ _ R) as (k & Lk & Et). unfold frame_tokens, slice.
  assert (Q : firstn (40 * frame_ntokens data) (skipn 43 data) = if_tokens f ++ skipn k (firstn (40 * frame_ntokens data) (skipn 43 data))).
  { rewrite Et. rewrite <- (firstn_skipn k (firstn (40 * frame_ntokens data) (skipn 43 data))) at 1. rewrite firstn_firstn, Nat.min_l by exact Lk. reflexivity. }
  rewrite Q. destruct (entries_prefix 40 es1 (if_tokens f) (skipn k (firstn (40 * frame_ntokens data) (skipn 43 data))) es2 ltac:(lia) He F) as [es3 ->].
  rewrite map_app. eexists. reflexivity.
Qed.

(** ** The frame *)

Lemma frame_call_why : forall ni nd no nt st id count processed ext hash c idx tokens box_id b r s',
  bytes_ok tokens = true -> am_rel (fst c) b -> (forall x, (0 <= b x)%Z) ->
  full_add_input_tokens op_tget p2pk_input_token_cb
    (mk_fs (mk_full FL_INPUTS_STARTED ni nd no nt (FU_INPUT (mk_input st id count processed ext) true)) hash c) box_id idx tokens = (r, s') ->
  res_pass r = false ->
  st <> IN_FRAMES_STARTED /\ r = R_BAD_STATE \/
  id <> box_id /\ r = R_BAD_INPUT_ID \/ count <= idx /\ r = R_TOO_MANY_INPUT_FRAMES \/ idx <> processed /\ r = R_BAD_FRAME_INDEX \/
  (r = R_BAD_TOKEN_ID \/ r = R_BAD_TOKEN_VALUE) /\ ~ Forall (fun e => length e = 40%nat) (entries 40 tokens) \/
  exists es1 es2, entries 40 tokens = es1 ++ es2 /\ Forall (fun e => length e = 40%nat) es1 /\
    (r = R_TOO_MANY_TOKENS /\ (20 < length (fold_left add_id (map fst (map pair_of es1)) (am_table (fst c))))%nat \/
     r = R_U64_OVERFLOW /\ exists x, (2 ^ 63 <= b x + Z.of_N (amount_of x (map pair_of es1)))%Z).
Proof.
  intros ni nd no nt st id count processed ext hash c idx tokens box_id b r s' Hok R Hpos H Hr.
  unfold full_add_input_tokens in H. cbn [fs_full fl_state] in H. unfold on_input in H. cbn [fs_full fl_union fs_hash fs_cb] in H.
  unfold input_add_tokens in H. cbn [is_in in_state in_box_id in_frames_count in_frames_processed] in H.
  destruct st; try (left; split; [discriminate|symmetry; exact (f_equal fst H)]).
  destruct (bytes_eqb id box_id) eqn:Eid; cbn [negb] in H.
  2:{ right. left. split; [|symmetry; exact (f_equal fst H)]. intros ->. rewrite bytes_eqb_refl in Eid. discriminate. }
  destruct (N.leb_spec count idx) as [Lc|Lc].
  { right. right. left. split; [exact Lc|symmetry; exact (f_equal fst H)]. }
  destruct (N.eqb_spec idx processed) as [Ep|Ep]; cbn [negb] in H.
  2:{ right. right. right. left. split; [exact Ep|symmetry; exact (f_equal fst H)]. }
  right. right. right. right.
  match type of H with context [input_tokens_loop ?f ?n ?x ?y] => destruct (input_tokens_loop f n x y) as [r1 s1] eqn:El end.
  pose proof (input_tokens_loop_why _ (mk_ins (mk_input IN_FRAMES_STARTED id count processed ext) hash c) _ b _ _ (Nat.lt_succ_diag_r _) Hok R Hpos El) as W. cbn [is_cb] in W. clear El.
  assert (X : r1 = R_OK \/ r = r1).
  { destruct r1; try (right; symmetry; exact (f_equal fst H)); left; reflexivity. }
  destruct X as [->|X].
  { exfalso. clear W. unfold input_frame_done in H. cbn [is_in in_frames_processed in_frames_count in_ext_size] in H.
    match type of H with context [if ?x then _ else _] => destruct x end; [|assert (X := f_equal fst H); assert (Y : res_pass (fst (r, s')) = true) by (rewrite <- X; reflexivity); cbn [fst] in Y; congruence].
    match type of H with context [if ?x then _ else _] => destruct x end.
    - unfold in_set_state in H. cbn [is_in in_state full_set_union fs_full fl_union] in H.
      apply (f_equal fst) in H. match type of H with fst ?x = _ => assert (Y : res_pass (fst x) = true) by apply input_finished_pass end.
      rewrite H in Y. cbn [fst] in Y. congruence.
    - unfold in_set_state in H. cbn [is_in in_state full_set_union fs_full fl_union] in H.
      assert (X := f_equal fst H); assert (Y : res_pass (fst (r, s')) = true) by (rewrite <- X; reflexivity); cbn [fst] in Y; congruence. }
  subst r1. destruct W as [->|[W|W]]; [discriminate Hr|left; exact W|right; exact W].
Qed.

Lemma table_mono : forall l t, (length t <= length (fold_left add_id l t))%nat.
Proof.
  induction l as [|x l IH]; intro t; [reflexivity|]. cbn [fold_left]. eapply Nat.le_trans; [|apply IH].
  unfold add_id. destruct (existsb _ _); [lia|rewrite app_length; lia].
Qed.
Lemma add_input_why : forall a v s' a', am_value a < two64 -> v < two64 -> amounts_add_input a v = (s', a') ->
  s' = SW_OK /\ a' = am_set_value a (am_value a + v) /\ am_value a + v < two64 \/ s' = SW_U64_OVERFLOW /\ two64 <= am_value a + v.
Proof.
  intros a v s' a' H1 H2 H. unfold amounts_add_input in H. rewrite checked_add_u64_exact in H by assumption.
  destruct (N.ltb_spec (am_value a + v) two64) as [L|L]; [left|right]; (split; [congruence|]); [split; [congruence|exact L]|exact L].
Qed.
(* the causes in terms of the description *)
Lemma causes_why : forall d d' h data f es1 es2 r,
  frame_read data f -> entries 40 (if_tokens f) = es1 ++ es2 -> Forall (fun e => length e = 40%nat) es1 ->
  sx_outputs d = [] -> sx_outputs d' = [] -> sx_tokens d' = sx_tokens d -> input_tokens d' = input_tokens d ++ frame_tokens data ->
  (r = R_TOO_MANY_TOKENS /\ (20 < length (fold_left add_id (map fst (map pair_of es1)) (table_of d)))%nat \/
     r = R_U64_OVERFLOW /\ exists x, (2 ^ 63 <= balance d x + Z.of_N (amount_of x (map pair_of es1)))%Z) ->
  frame_error d h data d' (sw_of_res r).
Proof.
  intros d d' h data f es1 es2 r R He F Ho Ho' Et Ei H. destruct (frame_tokens_prefix _ _ _ _ R He F) as [l Hl].
  destruct H as [[-> Q]|[-> (x & Q)]]; cbn [sw_of_res frame_error].
  - assert (X : (20 < length (table_of d'))%nat).
    { eapply Nat.lt_le_trans; [exact Q|]. unfold table_of. rewrite Ei, Et, Hl, !map_app, !fold_left_app. apply table_mono. }
    rewrite table_undeclared, app_length in X. unfold TOKENS_MAX, blen. lia.
  - right. exists x. rewrite balance_inputs in Q |- * by assumption. rewrite Ei, Hl, !amount_of_app. lia.
Qed.

Lemma frame_tokens_small : forall data f, frame_read data f -> ~ Forall (fun e => length e = 40%nat) (entries 40 (if_tokens f)) -> (4 < frame_ntokens data)%nat.
Proof.
  intros data f R H. destruct (le_lt_dec (frame_ntokens data) 4) as [L|L]; [|exact L]. exfalso. apply H.
  destruct (fr_small _ _ R L) as (L1 & -> & _). apply frame_tokens_whole. exact L1.
Qed.


Lemma new_input_why : forall E s d h op t id v n x r, wf E d h -> op_tx E s d h op -> op_union_of op = OU_TX t -> v < two64 ->
  p2pk_add_input op id v n x = r ->
  r = Fail SW_BAD_STATE /\ (~ tokens_done d h \/ inputs_done d h \/ exists i, current_input d i /\ input_complete i = false) \/
  (tokens_in d h = true /\ inputs_in d h = false /\
    (r = Fail SW_BAD_CONTEXT_EXTENSION_SIZE /\ (x = 1 \/ PART_MAX < x) \/
     r = Fail SW_U64_OVERFLOW /\ two64 <= total_in d + v \/
     r = Ok (mk_p2pk OP_INPUTS_STARTED (op_key op) (op_path op) (ss_prefix s ++ tx_bytes E d h) (op_network op)
       (am_set_value (op_amounts op) (am_value (op_amounts op) + v))
       (OU_TX (mk_tx (mk_full FL_INPUTS_STARTED (sh_inputs h - blen (sx_inputs d)) (sh_data h) (sh_outputs h) (sh_tokens h)
              (FU_INPUT (mk_input IN_FRAMES_STARTED id n 0 x) true)) None (tx_last_approved t)))))).
Proof.
  intros E s d h op t id v n x r W T Hu Bv H.
  destruct (op_fs_of _ _ _ _ _ T) as (t' & Hu' & Hfs & Hli). assert (t' = t) as -> by congruence. clear Hu'.
  pose proof T as (_ & Hst & _ & Ha & _). pose proof Ha as [A1 A2 A3 A4 A5].
  pose proof (tokens_in_done d h) as TI. pose proof (inputs_in_done E d h W) as II.
  destruct (sx_outputs d) as [|o outs] eqn:Ho.
  2:{ left. assert (Y : sx_outputs d <> []) by congruence. apply (w_out_in _ _ _ W) in Y as [Y _]. split; [|tauto].
      rewrite <- H. unfold p2pk_add_input. rewrite Hst. unfold op_phase. rewrite Ho. cbn. destruct (outputs_in d h); reflexivity. }
  assert (Est : op_state_of op = OP_TX_STARTED \/ op_state_of op = OP_INPUTS_STARTED).
  { rewrite Hst, (op_phase_none _ _ Ho). destruct (sx_inputs d); auto. }
  rewrite (add_input_unfold _ _ _ _ _ Est) in H.
  assert (Eoi : tx_output t = None) by (unfold last_info in Hli; rewrite Ho in Hli; exact Hli).
  unfold tx_call at 1 in H. rewrite Hu, Hfs, Eoi in H. unfold full_add_input, fs_of in H.
  cbn [fs_full full_of fl_state fl_union fl_inputs_count fs_hash fs_cb] in H.
  destruct (tokens_in d h) eqn:Tk.
  2:{ left. unfold phase_of in H. rewrite Tk in H. cbn in H. split; [congruence|]. left. rewrite <- TI. discriminate. }
  destruct (inputs_in d h) eqn:Hin.
  { left. split; [|right; left; tauto]. rewrite <- H. unfold phase_of. rewrite Tk, Hin. cbn [negb].
    destruct (data_in d h); cbn [negb]; [destruct (outputs_in d h)|]; reflexivity. }
  destruct (inputs_stage _ _ _ W Tk Hin) as (_ & Hd & Ep). rewrite Ep in H.
  assert (Hu2 : (exists i, current_input d i /\ input_complete i = false /\ union_of E d h = FU_INPUT (in_of i) true /\ in_state (in_of i) <> IN_FINISHED) \/
     Forall (fun i => input_complete i = true) (sx_inputs d) /\ exists c0 b0, union_of E d h = FU_INPUT c0 b0 /\ in_state c0 = IN_FINISHED).
  { destruct (snoc_cases _ (sx_inputs d)) as [Ei|(pre & i & Ei)].
    - right. split; [rewrite Ei; constructor|]. exists input_finished_ctx, false. split; [|reflexivity]. unfold union_of. rewrite Ho, Ei, Tk. reflexivity.
    - destruct (input_complete i) eqn:Ci.
      + right. split. { rewrite Ei. apply Forall_snoc. split; [exact (w_in_last _ _ _ W _ _ Ei)|exact Ci]. }
        exists (in_of i), true. split; [apply (union_inputs E d h pre i); assumption|].
        unfold input_complete in Ci. apply andb_true_iff in Ci as [C1 C2].
        unfold in_of, frames_in. rewrite C1, C2. reflexivity.
      + left. exists i. split; [exists pre; exact Ei|]. split; [exact Ci|]. split; [apply (union_inputs E d h pre i); assumption|].
        unfold input_complete in Ci. unfold in_of, frames_in. cbn [in_state]. destruct (_ =? si_count i); cbn [negb]; [|discriminate].
        cbn [andb] in Ci. rewrite Ci. discriminate. }
  destruct Hu2 as [(i & Cu & Ci & Hu2 & Hn)|(Cp & c0 & b0 & Hu2 & Hf2)].
  { left. rewrite Hu2 in H. split; [|right; right; exists i; split; assumption].
    destruct (in_state (in_of i)); try contradiction; cbn in H; congruence. }
  right. split; [reflexivity|]. split; [reflexivity|]. rewrite Hu2, Hf2 in H.
  assert (Dn : done_inputs d = blen (sx_inputs d)) by (unfold done_inputs; apply count_all; assumption).
  rewrite Dn in H. pose proof (w_in_le _ _ _ W) as Li.
  assert (Lt : blen (sx_inputs d) <> sh_inputs h) by (unfold inputs_in in Hin; rewrite Dn in Hin; apply N.eqb_neq; exact Hin).
  replace (sh_inputs h - blen (sx_inputs d) =? 0) with false in H by (symmetry; apply N.eqb_neq; lia).
  unfold input_init in H. destruct ((x =? 1) || (MAX_TX_DATA_PART_LEN <? x)) eqn:Ex.
  { left. split; [cbn in H; congruence|]. apply orb_true_iff in Ex as [Ex|Ex]; [left; apply N.eqb_eq; exact Ex|right; apply N.ltb_lt; exact Ex]. }
  right. set (fi := mk_full FL_INPUTS_STARTED (sh_inputs h - blen (sx_inputs d)) (sh_data h) (sh_outputs h) (sh_tokens h)
              (FU_INPUT (mk_input IN_FRAMES_STARTED id n 0 x) true)).
  cbn [res_pass tx_result sw_of_res] in H. unfold fs_with_full, full_set_union in H.
  cbn [fs_full full_of fl_state fl_union fl_inputs_count fl_data_inputs_count fl_outputs_count fl_distinct fs_hash fs_cb] in H.
  rewrite Ep, Dn, Hd, blen_nil, N.sub_0_r in H. unfold done_outputs in H. rewrite Ho, count_nil, N.sub_0_r in H.
  cbn [bind] in H.
  assert (S2 : forall op1 t1 H1 A1, op1 = op_put op t1 (mk_fs (full_set_union fi (FU_INPUT (mk_input IN_FRAMES_STARTED id n 0 x) false)) H1 A1) ->
         tx_call op1 full_set_input_callback = Ok (op_put op t1 (mk_fs fi H1 A1))).
  { intros op1 t1 H1 [a1 o1] ->. reflexivity. }
  match type of H with context [tx_call ?a _] => rewrite (S2 a t (ss_prefix s ++ tx_bytes E d h) (op_amounts op, None) eq_refl) in H end. cbn [bind op_put op_amounts fs_cb fst snd] in H.
  destruct (sums_no_outputs d Ho) as [Z1 Z2]. rewrite Z1, Z2 in A2.
  assert (V : am_value (op_amounts op) = total_in d) by lia.
  assert (V' : am_value (op_amounts op) < two64) by (rewrite V; exact A3).
  destruct (amounts_add_input (op_amounts op) v) as [s1 a1] eqn:Ea.
  destruct (add_input_why _ _ _ _ V' Bv Ea) as [(-> & -> & _)|[-> Q]].
  - right. rewrite <- H. reflexivity.
  - left. split; [congruence|]. rewrite <- V. exact Q.
Qed.

Lemma frame_why : forall E s key d h op data e, bytes_ok data = true -> wf E d h -> op_tx E s d h op ->
  exec_frame E key op data = Fail e ->
  layout_error E key 0x12 data e \/ frame_error d h data (describe_cmd d 0x12 data) e.
Proof.
  intros E s key d h op data e Hok W T H. unfold exec_frame in H.
  destruct (parse_input_frame E key data) as [f|e1] eqn:Hp; cbn [bind] in H.
  2:{ left. assert (e1 = e) as -> by congruence. apply parse_frame_why; assumption. }
  right. pose proof (parse_frame_read _ _ _ _ Hok Hp) as R.
  destruct (parse_input_frame_bounds _ _ _ _ Hok Hp) as (B1 & B2 & B3 & B4).
  destruct (op_fs_of _ _ _ _ _ T) as (t & Hu & Hfs & Hli).
  pose proof T as (_ & Hst & _ & Ha & _). pose proof Ha as [A1 A2 A3 A4 A5].
  pose proof (tokens_in_done d h) as TI. pose proof (inputs_in_done E d h W) as II.
  rewrite (fr_index _ _ R) in H. rewrite describe_frame. change (num 33 1 data) with (frame_index data) in *.
  destruct (N.eqb_spec (frame_index data) 0) as [Z|Z].
  - (* a new input *)
    set (d' := on_inputs _ d).
    destruct (p2pk_add_input op (if_box_id f) (if_value f) (if_frames_count f) (if_ext_len f)) as [op1|e1] eqn:Hi; cbn [bind] in H.
    2:{ assert (e1 = e) as -> by congruence. clear H.
      destruct (new_input_why _ _ _ _ _ _ _ _ _ _ _ W T Hu B3 Hi) as [[X Q]|(Tk & Hin & [[X Q]|[[X Q]|X]])]; try discriminate X.
      - assert (e = SW_BAD_STATE) as -> by congruence. cbn [frame_error]. destruct Q as [Q|[Q|Q]]; tauto.
      - assert (e = SW_BAD_CONTEXT_EXTENSION_SIZE) as -> by congruence. cbn [frame_error]. split; [exact Z|].
        destruct (le_lt_dec (frame_ntokens data) 4) as [L|L]; [right|left; exact L].
        destruct (fr_small _ _ R L) as (_ & _ & Ex). specialize (Ex Z). rewrite Ex in Q.
        eexists. split; [exists (sx_inputs d); reflexivity|]. exact Q.
      - assert (e = SW_U64_OVERFLOW) as -> by congruence. cbn [frame_error]. left.
        rewrite (total_in_snoc d' (sx_inputs d) _ eq_refl). cbn [si_value]. rewrite (fr_value _ _ R) in Q.
        change (total_in (mk_stx (sx_head d) (sx_tokens d) (sx_inputs d) (sx_data d) (sx_outputs d))) with (total_in d). exact Q. }
    destruct (new_input_why _ _ _ _ _ _ _ _ _ _ _ W T Hu B3 Hi) as [[X _]|(Tk & Hin & [[X _]|[[X _]|X]])]; try discriminate X.
    match type of X with _ = Ok ?a => assert (op1 = a) as -> by congruence end. clear X Hi.
    destruct (inputs_stage _ _ _ W Tk Hin) as (Ho & Hd & Ep).
    unfold p2pk_add_input_tokens in H. cbn [op_state_of] in H.
    match type of H with tx_call ?a ?b = _ => destruct (tx_call_why a (mk_tx (mk_full FL_INPUTS_STARTED (sh_inputs h - blen (sx_inputs d)) (sh_data h) (sh_outputs h) (sh_tokens h)
              (FU_INPUT (mk_input IN_FRAMES_STARTED (if_box_id f) (if_frames_count f) 0 (if_ext_len f)) true)) None (tx_last_approved t)) b _ eq_refl H) as [H' He] end. clear H. subst e.
    unfold op_fs in *. cbn [op_hash op_amounts tx_full tx_output] in *.
    match goal with |- context [full_add_input_tokens ?a ?b ?c ?d ?e ?g] => destruct (full_add_input_tokens a b c d e g) as [r x] eqn:Hc end.
    cbn [fst] in *.
    assert (A5' : am_rel (am_set_value (op_amounts op) (am_value (op_amounts op) + if_value f)) (balance d)) by (destruct A5; constructor; assumption).
    pose proof (frame_call_why _ _ _ _ _ _ _ _ _ _ (am_set_value (op_amounts op) (am_value (op_amounts op) + if_value f), None) _ _ _ (balance d) r x B4 A5'
      ltac:(intro y; rewrite balance_inputs by assumption; lia) Hc H') as Q. clear Hc. cbn [fst am_set_value am_table] in Q.
    destruct Q as [[Q _]|[[Q _]|[[Q ->]|[[Q _]|[[Q1 Q]|(es1 & es2 & Q1 & Q2 & Q3)]]]]]; try contradiction.
    + cbn [sw_of_res frame_error]. eexists. split; [exists (sx_inputs d); reflexivity|]. cbn [si_count]. rewrite <- (fr_count _ _ R). exact Q.
    + apply (frame_tokens_small _ _ R) in Q. destruct Q1 as [-> | ->]; exact Q.
    + refine (causes_why d d' h data f es1 es2 r R Q1 Q2 Ho Ho eq_refl _ _).
      * unfold input_tokens, d'. cbn [on_inputs sx_inputs]. rewrite map_app, concat_app. cbn [map concat si_frames]. rewrite !app_nil_r. reflexivity.
      * rewrite A4 in Q3. exact Q3.
  - (* a further frame *)
    cbn [bind] in H. set (d' := on_inputs _ d).
    assert (Bad : e = SW_BAD_STATE /\ (~ tokens_done d h \/ inputs_done d h \/ (0 < frame_index data /\ forall i, current_input d i -> blen (si_frames i) = si_count i)) ->
        frame_error d h data d' e).
    { intros [-> Q]. cbn [frame_error]. destruct Q as [Q|[Q|Q]]; [left; exact Q|right; left; exact Q|right; right; right; exact Q]. }
    unfold p2pk_add_input_tokens in H. rewrite Hst in H.
    destruct (sx_outputs d) as [|o outs] eqn:Ho.
    2:{ apply Bad. assert (Y : sx_outputs d <> []) by congruence. apply (w_out_in _ _ _ W) in Y as [Y _]. split; [|tauto].
        unfold op_phase in H. rewrite Ho in H. cbn in H. destruct (outputs_in d h); congruence. }
    rewrite (op_phase_none _ _ Ho) in H.
    destruct (snoc_cases _ (sx_inputs d)) as [Ei|(pre & i & Ei)].
    { apply Bad. rewrite Ei in H. split; [congruence|]. right. right. split; [lia|]. intros i (pre & K). rewrite Ei in K. destruct pre; discriminate. }
    replace (match sx_inputs d with [] => OP_TX_STARTED | _ => OP_INPUTS_STARTED end) with OP_INPUTS_STARTED in H
      by (rewrite Ei; destruct pre; reflexivity).
    destruct (tx_call_why _ _ _ _ Hu H) as [H' He]. clear H. subst e. rewrite Hfs in *.
    assert (Eoi : tx_output t = None) by (unfold last_info in Hli; rewrite Ho in Hli; exact Hli). rewrite Eoi in *.
    destruct (tokens_in d h) eqn:Tk.
    2:{ exfalso. assert (Y : sx_inputs d <> []) by (rewrite Ei; apply snoc_not_nil). apply (w_in_tokens _ _ _ W) in Y. congruence. }
    destruct (inputs_in d h) eqn:Hin.
    { apply Bad. split; [|tauto]. unfold full_add_input_tokens, fs_of. cbn [fs_full full_of fl_state]. unfold phase_of. rewrite Tk, Hin. cbn [negb].
      destruct (data_in d h); cbn [negb]; [destruct (outputs_in d h)|]; reflexivity. }
    destruct (inputs_stage _ _ _ W Tk Hin) as (_ & Hd & Ep).
    assert (Efs : exists st, fs_of E s d h (op_amounts op, None) =
      mk_fs (mk_full FL_INPUTS_STARTED (sh_inputs h - done_inputs d) (sh_data h - blen (sx_data d)) (sh_outputs h - done_outputs d) (sh_tokens h)
              (FU_INPUT (mk_input st (si_id i) (si_count i) (blen (si_frames i)) (si_ext_len i - blen (si_ext i))) true))
           (ss_prefix s ++ tx_bytes E d h) (op_amounts op, None) /\ (st <> IN_FRAMES_STARTED -> blen (si_frames i) = si_count i)).
    { eexists. split; [unfold fs_of, full_of; rewrite Ep, (union_inputs E d h pre i Ho Ei); unfold in_of; reflexivity|].
      unfold frames_in. destruct (N.eqb_spec (blen (si_frames i)) (si_count i)) as [X|X]; [intros _; exact X|]. cbn [negb]. contradiction. }
    destruct Efs as (st & Efs & Hstt). rewrite Efs in *. rewrite (fr_id _ _ R) in *.
    match goal with |- context [full_add_input_tokens ?a ?b ?c ?d ?e ?g] => destruct (full_add_input_tokens a b c d e g) as [r x] eqn:Hc end.
    cbn [fst] in *.
    pose proof (frame_call_why _ _ _ _ _ _ _ _ _ _ (op_amounts op, None) _ _ _ (balance d) r x B4 A5
      ltac:(intro y; rewrite balance_inputs by assumption; lia) Hc H') as Q. clear Hc. cbn [fst] in Q.
    assert (Cu : current_input d i) by (exists pre; exact Ei).
    assert (Cu' : current_input d' (mk_si (si_id i) (si_value i) (si_count i) (si_frames i ++ [frame_tokens data]) (si_ext_len i) (si_ext i))).
    { exists pre. unfold d'. cbn [on_inputs sx_inputs]. rewrite Ei, upd_last_snoc. reflexivity. }
    destruct Q as [[Q ->]|[[Q ->]|[[Q ->]|[[Q ->]|[[Q1 Q]|(es1 & es2 & Q1 & Q2 & Q3)]]]]].
    + apply Bad. split; [reflexivity|]. right. right. split; [lia|]. intros i0 K. rewrite (cur_in _ _ _ _ Ei K). apply Hstt. exact Q.
    + cbn [sw_of_res frame_error]. split; [lia|]. exists i. split; [exact Cu|exact Q].
    + cbn [sw_of_res frame_error]. eexists. split; [exact Cu'|]. exact Q.
    + cbn [sw_of_res frame_error]. split; [lia|]. exists i. split; [exact Cu|exact Q].
    + apply (frame_tokens_small _ _ R) in Q. destruct Q1 as [-> | ->]; exact Q.
    + refine (causes_why d d' h data f es1 es2 r R Q1 Q2 Ho Ho eq_refl _ _).
      * unfold input_tokens, d'. cbn [on_inputs sx_inputs]. rewrite Ei, upd_last_snoc, !map_app, !concat_app. cbn [map concat si_frames].
        rewrite concat_app, !app_nil_r. cbn [concat]. rewrite app_nil_r, app_assoc. reflexivity.
      * rewrite A4 in Q3. exact Q3.
Qed.
