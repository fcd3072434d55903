(** Reading from the I/O buffer is reading from the list of the command's bytes. *)
From Verif Require Import Lib Env Bip32 InputFrame RwBuffer SpecBuffer RwBufferProofs TxTable TxBox TxInput TxFull
  Amounts OutputInfo UiFlow P2pkOp App ReadBuf ReadTx ReadApp.

#[local] Arguments N.eqb : simpl never.
#[local] Arguments N.ltb : simpl never.
#[local] Arguments N.leb : simpl never.
#[local] Arguments N.sub : simpl never.

(** * Reads *)

Lemma data_len_unread : forall b, buffer_valid b -> rw_buffer_data_len b = blen (unread b).
Proof. intros b V. rewrite data_len_valid by assumption. unfold blen. rewrite unread_length by assumption. lia. Qed.

Lemma rounds_unread : forall b, buffer_valid b -> rounds b = S (length (unread b)).
Proof. intros b V. unfold rounds. rewrite data_len_unread by assumption. unfold blen. lia. Qed.

Lemma more_unread : forall b, buffer_valid b -> (0 <? rw_buffer_data_len b) = match unread b with [] => false | _ => true end.
Proof. intros b V. rewrite data_len_unread by assumption. destruct (unread b); reflexivity. Qed.

(** What a read of an integer or of bytes does, as a case distinction on the list read. *)
Lemma int_cases : forall b n, buffer_valid b -> N.of_nat n < 2 ^ 32 ->
  (read_be n (unread b) = None /\ rw_buffer_read_int true (N.of_nat n) b = B_fail b) \/
  exists v b', read_be n (unread b) = Some (v, unread b') /\ buffer_valid b' /\ rw_buffer_read_int true (N.of_nat n) b = B_ok b' v.
Proof.
  intros b n V H. pose proof (read_int_refines true b (N.of_nat n) V H) as R. rewrite Nat2N.id in R. unfold read_be.
  destruct (read_bytes n (unread b)) as [[l rest]|].
  - right. destruct R as (b' & R1 & R2 & R3 & _). exists (be_value l), b'. rewrite R3. auto.
  - left. auto.
Qed.
Lemma bytes_cases : forall b n, buffer_valid b -> N.of_nat n < 2 ^ 32 ->
  (read_bytes n (unread b) = None /\ rw_buffer_read_bytes b (N.of_nat n) = B_fail b) \/
  exists v b', read_bytes n (unread b) = Some (v, unread b') /\ buffer_valid b' /\ rw_buffer_read_bytes b (N.of_nat n) = B_ok b' v.
Proof.
  intros b n V H. pose proof (read_bytes_refines b (N.of_nat n) V H) as R. rewrite Nat2N.id in R.
  destruct (read_bytes n (unread b)) as [[l rest]|].
  - right. destruct R as (b' & R1 & R2 & R3 & _). exists l, b'. rewrite R3. auto.
  - left. auto.
Qed.
Lemma u8_cases : forall b, buffer_valid b ->
  (read_u8 (unread b) = None /\ rw_buffer_read_int true 1 b = B_fail b) \/
  exists v b', read_u8 (unread b) = Some (v, unread b') /\ buffer_valid b' /\ rw_buffer_read_int true 1 b = B_ok b' v.
Proof. intros b V. exact (int_cases b 1 V eq_refl). Qed.
Lemma u32_cases : forall b, buffer_valid b ->
  (read_u32 (unread b) = None /\ rw_buffer_read_int true 4 b = B_fail b) \/
  exists v b', read_u32 (unread b) = Some (v, unread b') /\ buffer_valid b' /\ rw_buffer_read_int true 4 b = B_ok b' v.
Proof. intros b V. exact (int_cases b 4 V eq_refl). Qed.
Lemma u64_cases : forall b, buffer_valid b ->
  (read_u64 (unread b) = None /\ rw_buffer_read_int true 8 b = B_fail b) \/
  exists v b', read_u64 (unread b) = Some (v, unread b') /\ buffer_valid b' /\ rw_buffer_read_int true 8 b = B_ok b' v.
Proof. intros b V. exact (int_cases b 8 V eq_refl). Qed.
Lemma id_cases : forall b, buffer_valid b ->
  (read_bytes ERGO_ID_LEN (unread b) = None /\ rw_buffer_read_bytes b 32 = B_fail b) \/
  exists v b', read_bytes ERGO_ID_LEN (unread b) = Some (v, unread b') /\ buffer_valid b' /\ rw_buffer_read_bytes b 32 = B_ok b' v.
Proof. intros b V. exact (bytes_cases b 32 V eq_refl). Qed.

Lemma peek_unread : forall b i n, buffer_valid b -> i + n <= blen (unread b) ->
  peek b i n = Some (firstn (N.to_nat n) (skipn (N.to_nat i) (unread b))).
Proof.
  intros b i n V H. unfold peek. unfold blen in H. rewrite unread_length in H by assumption.
  pose proof V as (V1 & V2 & V3 & V4). rewrite mem_get_ok by lia. f_equal. unfold unread.
  rewrite skipn_firstn_comm, skipn_plus, firstn_skipn_firstn.
  replace (N.to_nat (rb_off b + i)) with (N.to_nat (rb_off b) + N.to_nat i)%nat by lia.
  f_equal. lia.
Qed.
Lemma peek_all : forall b, buffer_valid b -> peek b 0 (rw_buffer_data_len b) = Some (unread b).
Proof.
  intros b V. rewrite data_len_unread, peek_unread by (assumption || lia). cbn [skipn N.to_nat]. f_equal.
  apply firstn_all2. unfold blen. lia.
Qed.
Lemma seek_all : forall b, buffer_valid b -> exists b', rw_buffer_seek_read_cur b (rw_buffer_data_len b) = B_ok b' tt.
Proof. intros b V. eexists. apply seek_read_cur_ok; [assumption|]. rewrite data_len_valid by assumption. lia. Qed.

(** * Paths *)
Lemma path_words_ok : forall n b o, buffer_valid b -> o + 4 * N.of_nat n < 2 ^ 32 -> o <= blen (unread b) ->
  path_words b o n = match read_u32s n (skipn (N.to_nat o) (unread b)) with
                     | Some (l, _) => B_ok b l
                     | None => B_fail b
                     end /\
  forall l r, read_u32s n (skipn (N.to_nat o) (unread b)) = Some (l, r) ->
    r = skipn (N.to_nat (o + 4 * N.of_nat n)) (unread b) /\ o + 4 * N.of_nat n <= blen (unread b).
Proof.
  induction n as [|n IH]; intros b o V H Ho; cbn [path_words read_u32s].
  - split; [reflexivity|]. intros l r Q. inv Q. rewrite N.mul_0_r, N.add_0_r. split; [reflexivity|assumption].
  - rewrite data_len_unread by assumption. rewrite sz_add_small by lia.
    unfold read_u32 at 1 2, read_be, read_bytes. rewrite skipn_length. fold (@blen byte (unread b)).
    destruct (N.ltb_spec (blen (unread b)) (o + 4)) as [L|L].
    + destruct (Nat.leb_spec 4 (length (unread b) - N.to_nat o)) as [L'|L']; [unfold blen in *; lia|].
      split; [reflexivity|discriminate].
    + destruct (Nat.leb_spec 4 (length (unread b) - N.to_nat o)) as [L'|L']; [|unfold blen in *; lia].
      rewrite peek_unread by (assumption || lia). rewrite skipn_plus.
      destruct (IH b (o + 4) V ltac:(lia) L) as [I1 I2].
      replace (N.to_nat o + 4)%nat with (N.to_nat (o + 4)) by lia. rewrite I1.
      replace (o + 4 * N.of_nat (S n)) with (o + 4 + 4 * N.of_nat n) by lia.
      destruct (read_u32s n (skipn (N.to_nat (o + 4)) (unread b))) as [[l r]|].
      * split; [reflexivity|]. intros l' r' Q. inv Q. apply (I2 l r'). reflexivity.
      * split; [reflexivity|discriminate].
Qed.

Lemma path_cases : forall b n, buffer_valid b ->
  (read_bip32_path n (unread b) = None /\ buffer_read_bip32_path b n = B_fail b) \/
  exists p b', read_bip32_path n (unread b) = Some (p, unread b') /\ buffer_valid b' /\ buffer_read_bip32_path b n = B_ok b' p.
Proof.
  intros b n V. unfold read_bip32_path, buffer_read_bip32_path.
  destruct ((n =? 0) || (MAX_BIP32_PATH <? n)) eqn:Hn; [left; auto|].
  apply orb_false_iff in Hn as [_ Hn]. apply N.ltb_ge in Hn. unfold MAX_BIP32_PATH in Hn.
  destruct (path_words_ok (N.to_nat n) b 0 V ltac:(rewrite N2Nat.id; lia) ltac:(lia)) as [P1 P2].
  cbn [N.to_nat skipn] in P1, P2. rewrite P1. rewrite N2Nat.id, N.add_0_l in P2.
  destruct (read_u32s (N.to_nat n) (unread b)) as [[l r]|]; [|left; auto].
  right. destruct (P2 l r eq_refl) as [-> Hl]. unfold blen in Hl. rewrite unread_length in Hl by assumption.
  rewrite seek_read_cur_ok by (assumption || lia). exists l, (rb_set_off b (rb_off b + 4 * n)).
  split; [|split; [|reflexivity]].
  - rewrite unread_skip by lia. reflexivity.
  - destruct V as (V1 & V2 & V3 & V4). unfold buffer_valid, rb_set_off. cbn [rb_off rb_wpos rb_cap rb_mem]. lia.
Qed.

(** * Parsers *)
Lemma get_u8 : forall B b (k : N -> rwb -> out B) k', buffer_valid b ->
  (forall v b', buffer_valid b' -> k v b' = k' (v, unread b')) ->
  get_int 1 b k = bind (rd (read_u8 (unread b))) k'.
Proof.
  intros B b k k' V H. unfold get_int. destruct (u8_cases b V) as [[H1 H2]|(v & b' & H1 & V' & H2)]; rewrite H1, H2; cbn; auto.
Qed.
Lemma get_u16 : forall B b (k : N -> rwb -> out B) k', buffer_valid b ->
  (forall v b', buffer_valid b' -> k v b' = k' (v, unread b')) ->
  get_int 2 b k = bind (rd (read_u16 (unread b))) k'.
Proof.
  intros B b k k' V H. unfold get_int. destruct (int_cases b 2 V eq_refl) as [[H1 H2]|(v & b' & H1 & V' & H2)];
    unfold read_u16; rewrite H1; change 2 with (N.of_nat 2); rewrite H2; cbn; auto.
Qed.
Lemma get_u32 : forall B b (k : N -> rwb -> out B) k', buffer_valid b ->
  (forall v b', buffer_valid b' -> k v b' = k' (v, unread b')) ->
  get_int 4 b k = bind (rd (read_u32 (unread b))) k'.
Proof.
  intros B b k k' V H. unfold get_int. destruct (u32_cases b V) as [[H1 H2]|(v & b' & H1 & V' & H2)]; rewrite H1, H2; cbn; auto.
Qed.
Lemma get_u64 : forall B b (k : N -> rwb -> out B) k', buffer_valid b ->
  (forall v b', buffer_valid b' -> k v b' = k' (v, unread b')) ->
  get_int 8 b k = bind (rd (read_u64 (unread b))) k'.
Proof.
  intros B b k k' V H. unfold get_int. destruct (u64_cases b V) as [[H1 H2]|(v & b' & H1 & V' & H2)]; rewrite H1, H2; cbn; auto.
Qed.
Lemma get_id : forall B b (k : bytes -> rwb -> out B) k', buffer_valid b ->
  (forall v b', buffer_valid b' -> k v b' = k' (v, unread b')) ->
  get_bytes 32 b k = bind (rd (read_bytes ERGO_ID_LEN (unread b))) k'.
Proof.
  intros B b k k' V H. unfold get_bytes. destruct (id_cases b V) as [[H1 H2]|(v & b' & H1 & V' & H2)]; rewrite H1, H2; cbn; auto.
Qed.
Lemma get_path_ok : forall B n b (k : path -> rwb -> out B) k', buffer_valid b ->
  (forall v b', buffer_valid b' -> k v b' = k' (v, unread b')) ->
  get_path n b k = bind (rd (read_bip32_path n (unread b))) k'.
Proof.
  intros B n b k k' V H. unfold get_path. destruct (path_cases b n V) as [[H1 H2]|(v & b' & H1 & V' & H2)]; rewrite H1, H2; cbn; auto.
Qed.
Lemma get_token_ok : forall B has b (k : N -> rwb -> out B) k', buffer_valid b ->
  (forall v b', buffer_valid b' -> k v b' = k' (v, unread b')) ->
  get_token has b k = bind (rd_token has (unread b)) k'.
Proof. intros B [|] b k k' V H; cbn [get_token rd_token]; [apply get_u32; assumption|cbn; auto]. Qed.
Lemma at_end_ok : forall A b (a : A), buffer_valid b -> at_end b a = finished (unread b) a.
Proof.
  intros A b a V. unfold at_end, rw_buffer_can_read. rewrite data_len_unread by assumption.
  destruct (unread b) as [|x l]; [reflexivity|]. cbn [finished]. replace (1 <=? blen (x :: l)) with true; [reflexivity|].
  symmetry. apply N.leb_le. unfold blen. cbn [length]. lia.
Qed.
Lemma raw_read_path_ok : forall B b (k : path -> rwb -> out B) k', buffer_valid b ->
  (forall v b', buffer_valid b' -> k v b' = k' (v, unread b')) ->
  raw_read_path b k = bind (stx_read_bip32_path (unread b)) k'.
Proof.
  intros B b k k' V H. unfold raw_read_path, stx_read_bip32_path.
  destruct (u8_cases b V) as [[H1 H2]|(n & b1 & H1 & V1 & H2)]; rewrite H1, H2; [reflexivity|]. cbn [need].
  destruct (path_cases b1 n V1) as [[H3 H4]|(v & b' & H3 & V' & H4)]; rewrite H3, H4; cbn; auto.
Qed.

Ltac reads :=
  first [ apply at_end_ok; assumption
        | (apply get_u8 || apply get_u16 || apply get_u32 || apply get_u64 || apply get_id || apply get_path_ok ||
           apply get_token_ok || apply raw_read_path_ok); [assumption|intros ? ? ?; reads] ].

Lemma parse_epk_ok : forall has b, buffer_valid b -> raw_parse_epk has b = parse_epk has (unread b).
Proof. intros has b V. unfold raw_parse_epk, parse_epk. reads. Qed.
Lemma parse_da_ok : forall has b, buffer_valid b -> raw_parse_da has b = parse_da has (unread b).
Proof. intros has b V. unfold raw_parse_da, parse_da. reads. Qed.
Lemma parse_attest_init_ok : forall has b, buffer_valid b -> raw_parse_attest_init has b = parse_attest_init has (unread b).
Proof. intros has b V. unfold raw_parse_attest_init, parse_attest_init. reads. Qed.
Lemma parse_frame_index_ok : forall b, buffer_valid b ->
  raw_parse_frame_index b = bind (rd (read_u8 (unread b))) (fun '(i, l) => finished l i).
Proof. intros b V. unfold raw_parse_frame_index. reads. Qed.
Lemma parse_sign_init_ok : forall has b, buffer_valid b -> raw_parse_sign_init has b = parse_sign_init has (unread b).
Proof. intros has b V. unfold raw_parse_sign_init, parse_sign_init. reads. Qed.
Lemma parse_tx_start_ok : forall b, buffer_valid b -> raw_parse_tx_start b = parse_tx_start (unread b).
Proof. intros b V. unfold raw_parse_tx_start, parse_tx_start. reads. Qed.
Lemma parse_output_init_ok : forall b, buffer_valid b -> raw_parse_output_init b = parse_output_init (unread b).
Proof. intros b V. unfold raw_parse_output_init, parse_output_init. reads. Qed.

(** * Frames *)
Lemma can_read_unread : forall b n, buffer_valid b -> rw_buffer_can_read b n = (n <=? blen (unread b)).
Proof. intros b n V. unfold rw_buffer_can_read. rewrite data_len_unread by assumption. reflexivity. Qed.

Lemma frame_data_length_ok : forall b, buffer_valid b -> raw_frame_data_length b = Some (input_frame_data_length (unread b)).
Proof.
  intros b V. unfold raw_frame_data_length, input_frame_data_length. rewrite can_read_unread by assumption.
  rewrite <- N.ltb_antisym.
  destruct (N.ltb_spec (blen (unread b)) FRAME_MIN_SIZE) as [L|L]; [reflexivity|]. unfold FRAME_MIN_SIZE in L.
  rewrite peek_unread by (assumption || (unfold FRAME_TOKEN_COUNT_POSITION; lia)). rewrite Nat2N.id.
  change (N.to_nat 1) with 1%nat.
  assert (Hd : hd 0 (firstn 1 (skipn FRAME_TOKEN_COUNT_POSITION (unread b))) = nth FRAME_TOKEN_COUNT_POSITION (unread b) 0).
  { assert (P : (FRAME_TOKEN_COUNT_POSITION < length (unread b))%nat) by (unfold blen in L; unfold FRAME_TOKEN_COUNT_POSITION; lia).
    revert P. generalize FRAME_TOKEN_COUNT_POSITION. generalize (unread b). clear. intros l. induction l as [|x l IH]; intros n P; [cbn in P; lia|].
    destruct n as [|n]; [reflexivity|]. cbn [skipn nth]. apply IH. cbn in P. lia. }
  rewrite Hd, can_read_unread by assumption. rewrite <- N.ltb_antisym. destruct (_ <? _); reflexivity.
Qed.

Lemma sub_buffer_ok : forall b n, buffer_valid b -> n <= blen (unread b) ->
  buffer_valid (sub_buffer b n) /\ unread (sub_buffer b n) = firstn (N.to_nat n) (unread b).
Proof.
  intros b n V H. unfold blen in H. rewrite unread_length in H by assumption. pose proof V as (V1 & V2 & V3 & V4).
  unfold sub_buffer, buffer_init, rw_buffer_init. split.
  - unfold buffer_valid, blen. cbn [rb_off rb_wpos rb_cap rb_mem]. rewrite skipn_length. unfold blen in V3. lia.
  - rewrite <- unread_firstn by lia. unfold unread. cbn [rb_off rb_wpos rb_mem]. rewrite N.sub_0_r. reflexivity.
Qed.

(** What the parsed frame is for the list of bytes. *)
Definition frame_agrees (x : out raw_frame) (y : out input_frame) : Prop :=
  match x with
  | Ok f => buffer_valid (rf_tokens f) /\
            y = Ok (mk_frame (rf_box_id f) (rf_frames_count f) (rf_index f) (rf_value f) (unread (rf_tokens f)) (rf_ext_len f))
  | Fail s => y = Fail s
  end.
Lemma agrees_get : forall A (c : rwb -> bres A) (r : bytes -> option (A * bytes)) b k k', 
  (r (unread b) = None /\ c b = B_fail b) \/ (exists v b', r (unread b) = Some (v, unread b') /\ buffer_valid b' /\ c b = B_ok b' v) ->
  (forall v b', buffer_valid b' -> r (unread b) = Some (v, unread b') -> frame_agrees (k v b') (k' (v, unread b'))) ->
  frame_agrees (need SW_NOT_ENOUGH_DATA (c b) k) (bind (rd (r (unread b))) k').
Proof.
  intros A c r b k k' [[H1 H2]|(v & b' & H1 & V & H2)] H; rewrite H1, H2; cbn [need rd bind]; [reflexivity|]. apply H; assumption.
Qed.

Lemma seek_cases : forall b n, buffer_valid b -> n < 2 ^ 32 ->
  (blen (unread b) < n /\ rw_buffer_seek_read_cur b n = B_fail b) \/
  (n <= blen (unread b) /\ exists b', rw_buffer_seek_read_cur b n = B_ok b' tt /\ buffer_valid b' /\ unread b' = skipn (N.to_nat n) (unread b)).
Proof.
  intros b n V Hn. rewrite seek_read_cur_cases by assumption. unfold blen. rewrite unread_length by assumption.
  destruct (N.leb_spec n (rb_wpos b - rb_off b)) as [L|L].
  - right. split; [lia|]. eexists. split; [reflexivity|]. split; [|apply unread_skip; assumption].
    destruct V as (V1 & V2 & V3 & V4). unfold buffer_valid, rb_set_off. cbn [rb_off rb_wpos rb_cap rb_mem]. lia.
  - left. split; [lia|reflexivity].
Qed.

Lemma parse_input_frame_ok : forall E key b, buffer_valid b ->
  frame_agrees (raw_parse_input_frame E key b) (parse_input_frame E key (unread b)).
Proof.
  intros E key b V. unfold raw_parse_input_frame, parse_input_frame. rewrite frame_data_length_ok by assumption.
  set (n := input_frame_data_length (unread b)).
  destruct (N.eqb_spec n 0) as [Z|Z]; [reflexivity|].
  assert (Hn : n + 16 <= blen (unread b)).
  { unfold n, input_frame_data_length in *. change (N.of_nat FRAME_SIGNATURE_LEN) with 16 in *.
    destruct (_ <? _); [lia|]. destruct (N.ltb_spec (blen (unread b)) (u8 (nth FRAME_TOKEN_COUNT_POSITION (unread b) 0 * FRAME_PAIR_SIZE + FRAME_PREFIX_LEN) + 16)); lia. }
  change (N.of_nat FRAME_SIGNATURE_LEN) with 16.
  rewrite (peek_unread b 0 n V), (peek_unread b n 16 V) by lia.
  change (N.to_nat 0) with 0%nat. change (skipn 0 (unread b)) with (unread b). change (N.to_nat 16) with FRAME_SIGNATURE_LEN.
  destruct (negb _); [reflexivity|].
  apply (agrees_get _ (fun b => rw_buffer_read_bytes b 32) (read_bytes ERGO_ID_LEN)); [apply id_cases; assumption|]. intros id b1 V1 _.
  apply (agrees_get _ (fun b => rw_buffer_read_int true 1 b) read_u8); [apply u8_cases; assumption|]. intros fc b2 V2 _.
  apply (agrees_get _ (fun b => rw_buffer_read_int true 1 b) read_u8); [apply u8_cases; assumption|]. intros fi b3 V3 _.
  apply (agrees_get _ (fun b => rw_buffer_read_int true 8 b) read_u64); [apply u64_cases; assumption|]. intros v b4 V4 _.
  apply (agrees_get _ (fun b => rw_buffer_read_int true 1 b) read_u8); [apply u8_cases; assumption|]. intros tc b5 V5 _.
  cbv zeta. set (tl := u8 (tc * FRAME_PAIR_SIZE)). change (N.of_nat FRAME_SIGNATURE_LEN) with 16.
  assert (Ht : tl < 256) by (unfold tl, u8; apply N.mod_lt; discriminate).
  destruct (seek_cases b5 (tl + 16) V5 ltac:(lia)) as [[L H]|(L & b6 & H & V6 & U6)]; rewrite H; cbn [need].
  - replace (blen (unread b5) <? tl + 16) with true by (symmetry; apply N.ltb_lt; assumption). reflexivity.
  - replace (blen (unread b5) <? tl + 16) with false by (symmetry; apply N.ltb_ge; assumption).
    destruct (sub_buffer_ok b5 tl V5 ltac:(lia)) as [S1 S2].
    replace (N.to_nat tl + FRAME_SIGNATURE_LEN)%nat with (N.to_nat (tl + 16)) by (unfold FRAME_SIGNATURE_LEN; lia).
    rewrite <- U6. destruct (fi =? 0).
    + apply (agrees_get _ (fun b => rw_buffer_read_int true 4 b) read_u32); [apply u32_cases; assumption|]. intros ext b7 V7 _.
      split; [exact S1|]. cbn [rf_box_id rf_frames_count rf_index rf_value rf_tokens rf_ext_len]. rewrite S2. reflexivity.
    + split; [exact S1|]. cbn [rf_box_id rf_frames_count rf_index rf_value rf_tokens rf_ext_len]. rewrite S2. reflexivity.
Qed.
