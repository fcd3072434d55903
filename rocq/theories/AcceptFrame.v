(** When an input frame (0x12) is accepted. *)
From Verif Require Import Base SafeInt Gve TxTable TxBox TxInput TxFull Amounts OutputInfo Env InputFrame UiFlow P2pkOp App Lib SpecVlq
  CodecProofs SpecTree SpecTrace SpecTx SpecAmounts BoxProofs AmountProofs SignInv SignInput SignData SignOutput
  SpecApdu SpecScreen SpecRequest SpecSign SpecRules RulesProofs SpecAccept AcceptInput.
#[local] Arguments N.eqb : simpl never.
#[local] Arguments N.ltb : simpl never.
#[local] Arguments N.leb : simpl never.
#[local] Arguments N.sub : simpl never.
#[local] Arguments blen : simpl never.
#[local] Arguments num : simpl never.
#[local] Arguments slice : simpl never.

(** ** The table of the tokens *)

Lemma existsb_in : forall x l, existsb (bytes_eqb x) l = true <-> In x l.
Proof.
  intros x l. rewrite existsb_exists. split.
  - intros (y & Hy & K). apply bytes_eqb_eq in K. subst y. exact Hy.
  - intro H. exists x. split; [exact H|apply bytes_eqb_refl].
Qed.
Lemma table_split : forall ids t acc,
  fold_left add_id ids (t ++ filter (fun id => negb (existsb (bytes_eqb id) t)) acc) =
  t ++ filter (fun id => negb (existsb (bytes_eqb id) t)) (fold_left add_id ids acc).
Proof.
  induction ids as [|x ids IH]; intros t acc; cbn [fold_left]; [reflexivity|]. rewrite <- IH. f_equal.
  unfold add_id at 1 2. destruct (existsb (bytes_eqb x) acc) eqn:A.
  - replace (existsb (bytes_eqb x) (t ++ filter (fun id => negb (existsb (bytes_eqb id) t)) acc)) with true; [reflexivity|].
    symmetry. apply existsb_in. apply in_app_iff. destruct (existsb (bytes_eqb x) t) eqn:B.
    + left. apply existsb_in. exact B.
    + right. apply filter_In. split; [apply existsb_in; exact A|]. rewrite B. reflexivity.
  - rewrite filter_app. cbn [filter]. destruct (existsb (bytes_eqb x) t) eqn:B; cbn [negb].
    + rewrite app_nil_r. replace (existsb (bytes_eqb x) (t ++ filter (fun id => negb (existsb (bytes_eqb id) t)) acc)) with true; [reflexivity|].
      symmetry. apply existsb_in. apply in_app_iff. left. apply existsb_in. exact B.
    + replace (existsb (bytes_eqb x) (t ++ filter (fun id => negb (existsb (bytes_eqb id) t)) acc)) with false.
      * rewrite app_assoc. reflexivity.
      * symmetry. apply not_true_is_false. intro K. apply existsb_in in K. apply in_app_iff in K as [K|K].
        -- apply existsb_in in K. congruence.
        -- apply filter_In in K as [K _]. apply existsb_in in K. congruence.
Qed.
Lemma table_undeclared : forall d, table_of d = sx_tokens d ++ undeclared d.
Proof.
  intro d. unfold table_of, undeclared. rewrite <- (app_nil_r (sx_tokens d)) at 1.
  change (@nil bytes) with (filter (fun id => negb (existsb (bytes_eqb id) (sx_tokens d))) []) at 1.
  rewrite table_split. reflexivity.
Qed.

(** ** Amounts *)

Lemma add_input_token_succ : forall c b id v,
  am_rel c b -> (forall x, (0 <= b x)%Z) -> v < two64 -> (b id + Z.of_N v < 2 ^ 63)%Z -> (length (add_id (am_table c) id) <= 20)%nat ->
  exists c', amounts_add_input_token c id v = (R_OK, c').
Proof.
  intros c b id v R Hpos Hv Hb Ht. unfold amounts_add_input_token. pose proof (Hpos id) as Hp.
  assert (Eok : forall z, (z = b id)%Z -> i64_ok (z + Z.of_N v) = true).
  { intros z ->. unfold i64_ok. apply andb_true_iff. split; apply Z.leb_le; lia. }
  destruct (find_spec (am_table c) id (ar_table _ _ R)) as [(Hi & Hl & Hn & Hf & Hin)|[Hi Hn]].
  - set (i := token_table_find_token_index (am_table c) id) in *.
    rewrite (proj2 (N.eqb_neq i INDEX_NOT_EXIST)) by assumption.
    rewrite (proj2 (N.eqb_neq i INDEX_NOT_EXIST)) by assumption.
    pose proof (ar_table _ _ R). pose proof (ar_len _ _ R).
    rewrite tok_get_nth by lia.
    assert (Es : nth (N.to_nat i) (am_tokens c) 0%Z = b id).
    { rewrite (ar_slot _ _ R) by lia. rewrite Hf, Hn. reflexivity. }
    rewrite checked_add_i64_exact; [|rewrite Es; apply R|rewrite Es; lia|assumption].
    rewrite (Eok _ Es). eexists. reflexivity.
  - rewrite Hi, N.eqb_refl. unfold token_table_add_token.
    assert (Ha : add_id (am_table c) id = am_table c ++ [id]).
    { unfold add_id. destruct (existsb (bytes_eqb id) (am_table c)) eqn:X; [|reflexivity]. apply existsb_in in X. contradiction. }
    rewrite Ha, app_length in Ht. cbn [length] in Ht.
    replace (TOKEN_MAX_COUNT <=? blen (am_table c)) with false by (symmetry; apply N.leb_gt; unfold TOKEN_MAX_COUNT, blen; lia).
    assert (Hb' : blen (am_table c) <> INDEX_NOT_EXIST) by (unfold blen, INDEX_NOT_EXIST; lia).
    rewrite (proj2 (N.eqb_neq _ _) Hb'), (proj2 (N.eqb_neq _ _) Hb').
    assert (Z0 : nth (length (am_table c)) (am_tokens c) 0%Z = 0%Z).
    { rewrite (ar_slot _ _ R) by lia. rewrite first_out by lia. reflexivity. }
    pose proof (ar_len _ _ R) as Hlen.
    assert (Eb : N.to_nat (blen (am_table c)) = length (am_table c)) by (unfold blen; lia).
    rewrite Eb.
    assert (Es : set_nth (length (am_table c)) 0%Z (am_tokens c) = am_tokens c).
    { rewrite <- Z0 at 1. apply set_nth_id. lia. }
    cbn [am_tokens am_set_tokens]. rewrite Es.
    rewrite tok_get_nth by (rewrite Eb; lia). rewrite Eb, Z0.
    rewrite checked_add_i64_exact; [|reflexivity|discriminate|assumption].
    rewrite Eok by (symmetry; apply R; assumption). eexists. reflexivity.
Qed.
Lemma add_id_len : forall ids t, (length t <= length (fold_left add_id ids t))%nat.
Proof. intros ids t. destruct (table_prefix ids t) as [ext ->]. rewrite app_length. lia. Qed.

Lemma input_tokens_loop_succ : forall fuel s tokens b, (length tokens < fuel)%nat ->
  bytes_ok tokens = true -> am_rel (fst (is_cb s)) b -> (forall x, (0 <= b x)%Z) ->
  let l := map (fun e => (slice 0 32 e, num 32 8 e)) (entries 40 tokens) in
  Forall (fun e => length e = 40%nat) (entries 40 tokens) ->
  (forall x, (b x + Z.of_N (amount_of x l) < 2 ^ 63)%Z) ->
  (length (fold_left add_id (map fst l) (am_table (fst (is_cb s)))) <= 20)%nat ->
  exists s', input_tokens_loop (Some p2pk_input_token_cb) fuel s tokens = (R_OK, s').
Proof.
  induction fuel as [|k IH]; intros s tokens b Hf Hok R Hpos l F Hb Hl; [lia|]. cbn [input_tokens_loop].
  destruct tokens as [|x tokens]; [eexists; reflexivity|]. remember (x :: tokens) as inp eqn:Ei.
  assert (Li : (0 < length inp)%nat) by (subst; cbn; lia). clear Ei.
  assert (L : (40 <= length inp)%nat).
  { destruct (entries_len 40 inp ltac:(lia) F) as (m & Em & _). destruct m; lia. }
  assert (L1 : length (firstn 40 inp) = 40%nat) by (apply firstn_length_le; lia).
  assert (Een : entries 40 inp = firstn 40 inp :: entries 40 (skipn 40 inp)).
  { rewrite <- (entries_app 40 (firstn 40 inp)) by (assumption || lia). rewrite firstn_skipn. reflexivity. }
  unfold l in Hb, Hl. clear l. rewrite Een in F, Hb, Hl. apply Forall_inv_tail in F. cbn [map fold_left fst] in Hb, Hl.
  assert (S1 : slice 0 32 (firstn 40 inp) = slice 0 32 inp).
  { unfold slice. cbn [skipn]. rewrite firstn_firstn. reflexivity. }
  assert (S2 : num 32 8 (firstn 40 inp) = num 32 8 inp).
  { unfold num, slice. f_equal. rewrite skipn_firstn_comm. rewrite firstn_firstn. reflexivity. }
  rewrite S1 in Hl. rewrite S1, S2 in Hb.
  rewrite read_bytes_ex by (unfold ERGO_ID_LEN; lia). unfold ERGO_ID_LEN.
  unfold read_u64. rewrite read_be_ex by (rewrite skipn_length; lia).
  assert (Sk : skipn 8 (skipn 32 inp) = skipn 40 inp) by (rewrite skipn_add; reflexivity).
  rewrite Sk.
  assert (Sn : num 0 8 (skipn 32 inp) = num 32 8 inp) by reflexivity.
  rewrite Sn. unfold p2pk_input_token_cb at 1.
  assert (Bv : num 32 8 inp < two64) by (apply (num_bound 32 8); assumption).
  set (id := slice 0 32 inp) in *. set (v := num 32 8 inp) in *. clearbody v.
  assert (Hb1 : (b id + Z.of_N v < 2 ^ 63)%Z).
  { specialize (Hb id). rewrite amount_of_cons, bytes_eqb_refl in Hb. lia. }
  destruct (add_input_token_succ (fst (is_cb s)) b id v R Hpos Bv Hb1) as [a Ha].
  { etransitivity; [|exact Hl]. apply add_id_len. }
  match goal with |- context [amounts_add_input_token ?x ?y ?z] =>
    replace (amounts_add_input_token x y z) with (R_OK, a) by (symmetry; exact Ha) end.
  destruct (add_input_token_ok _ _ _ _ _ R Hpos Bv Ha) as (R' & F1 & F2 & F3).
  apply (IH _ _ (upd b id (Z.of_N v))).
  - rewrite skipn_length. lia.
  - rewrite <- (firstn_skipn 40 inp), bytes_ok_app in Hok. apply andb_true_iff in Hok. tauto.
  - exact R'.
  - intro y. unfold upd. specialize (Hpos y). destruct (bytes_eqb id y); lia.
  - exact F.
  - intro y. specialize (Hb y). rewrite amount_of_cons in Hb. unfold upd. destruct (bytes_eqb id y); lia.
  - cbn [is_cb fst]. rewrite F3. exact Hl.
Qed.

(** ** Reading the frame *)

Lemma frame_tokens_whole : forall data, (43 + 40 * frame_ntokens data + 16 <= length data)%nat ->
  Forall (fun e => length e = 40%nat) (entries 40 (slice 43 (40 * frame_ntokens data) data)).
Proof.
  intros data H. apply entries_whole; [lia|]. unfold entries_of, slice. rewrite firstn_length_le by (rewrite skipn_length; lia).
  rewrite Nat.mul_comm. apply Nat.mod_mul. lia.
Qed.
Lemma parse_input_frame_succ : forall E key data, bytes_ok data = true -> attested_data E key data ->
  (num 33 1 data = 0 -> (43 + 40 * frame_ntokens data + 16 + 4 <= length data)%nat) ->
  exists f, parse_input_frame E key data = Ok f.
Proof.
  intros E key data Hok (Hl & Hn & Ht) H0. set (m := frame_ntokens data) in *.
  unfold parse_input_frame, input_frame_data_length.
  unfold FRAME_MIN_SIZE, FRAME_TOKEN_COUNT_POSITION, FRAME_PAIR_SIZE, FRAME_PREFIX_LEN, FRAME_SIGNATURE_LEN.
  assert (Etc : num 42 1 data = nth 42 data 0) by (apply num1_nth; lia).
  assert (Btc : nth 42 data 0 < 256).
  { rewrite <- Etc. apply (num_bound 42 1 data Hok). }
  assert (Em : nth 42 data 0 mod 32 = N.of_nat m) by (unfold m, frame_ntokens; rewrite Etc; lia).
  set (tc := nth 42 data 0) in *.
  assert (E1 : u8 (tc * 40 + 43) = 43 + 40 * N.of_nat m).
  { unfold u8, two8. zify; Z.to_euclidean_division_equations; lia. }
  assert (E2 : u8 (tc * 40) = 40 * N.of_nat m).
  { unfold u8, two8. zify; Z.to_euclidean_division_equations; lia. }
  rewrite E1.
  replace (blen data <? 59) with false by (symmetry; apply N.ltb_ge; unfold blen; lia).
  replace (blen data <? 43 + 40 * N.of_nat m + N.of_nat 16) with false by (symmetry; apply N.ltb_ge; unfold blen; lia).
  replace (43 + 40 * N.of_nat m =? 0) with false by (symmetry; apply N.eqb_neq; lia).
  replace (N.to_nat (43 + 40 * N.of_nat m)) with (43 + 40 * m)%nat by lia.
  unfold frame_tag, frame_body, slice in Ht. fold m in Ht. cbn [skipn] in Ht.
  replace (bytes_eqb _ _) with true by (symmetry; apply bytes_eqb_eq; symmetry; exact Ht). cbn [negb].
  rewrite read_bytes_ex by (unfold ERGO_ID_LEN; lia). unfold ERGO_ID_LEN. cbn [rd bind].
  unfold read_u8, read_u64, read_u32.
  rewrite read_be_ex by (rewrite skipn_length; lia). cbn [rd bind]. rewrite skipn_add.
  rewrite read_be_ex by (rewrite skipn_length; lia). cbn [rd bind]. rewrite skipn_add.
  rewrite read_be_ex by (rewrite skipn_length; lia). cbn [rd bind]. rewrite skipn_add.
  rewrite read_be_ex by (rewrite skipn_length; lia). cbn [rd bind]. rewrite skipn_add.
  set (n42 := num 0 1 (skipn _ data)). assert (En : n42 = tc) by exact Etc.
  rewrite En, E2.
  set (i33 := num 0 1 (skipn _ data)). assert (Ei : i33 = num 33 1 data) by reflexivity.
  replace (blen _ <? 40 * N.of_nat m + N.of_nat 16) with false by (symmetry; apply N.ltb_ge; unfold blen; rewrite skipn_length; lia).
  destruct (N.eqb_spec i33 0) as [Z|Z]; [|eexists; reflexivity]. rewrite Ei in Z. specialize (H0 Z).
  rewrite skipn_add. rewrite read_be_ex by (rewrite skipn_length; lia). cbn [rd bind]. eexists. reflexivity.
Qed.

(** ** The frame *)

Lemma frame_pass : forall ni nd no nt id count processed ext hash c idx tokens box_id b,
  bytes_ok tokens = true -> am_rel (fst c) b -> (forall x, (0 <= b x)%Z) ->
  let l := map (fun e => (slice 0 32 e, num 32 8 e)) (entries 40 tokens) in
  id = box_id -> idx = processed -> idx < count ->
  Forall (fun e => length e = 40%nat) (entries 40 tokens) ->
  (forall x, (b x + Z.of_N (amount_of x l) < 2 ^ 63)%Z) ->
  (length (fold_left add_id (map fst l) (am_table (fst c))) <= 20)%nat ->
  res_pass (fst (full_add_input_tokens op_tget p2pk_input_token_cb
    (mk_fs (mk_full FL_INPUTS_STARTED ni nd no nt (FU_INPUT (mk_input IN_FRAMES_STARTED id count processed ext) true)) hash c) box_id idx tokens)) = true.
Proof.
  intros ni nd no nt id count processed ext hash c idx tokens box_id b Hok R Hpos l -> -> Hlt F Hb Hl.
  unfold full_add_input_tokens. cbn [fs_full fl_state]. unfold on_input. cbn [fs_full fl_union fs_hash fs_cb].
  unfold input_add_tokens. cbn [is_in in_state in_box_id in_frames_count in_frames_processed].
  rewrite bytes_eqb_refl. cbn [negb]. replace (count <=? processed) with false by (symmetry; apply N.leb_gt; exact Hlt).
  rewrite N.eqb_refl. cbn [negb].
  destruct (input_tokens_loop_succ (S (length tokens)) (mk_ins (mk_input IN_FRAMES_STARTED box_id count processed ext) hash c) tokens b
    ltac:(lia) Hok R Hpos F Hb Hl) as [s' Hs].
  match goal with |- context [input_tokens_loop ?f ?n ?x ?y] =>
    replace (input_tokens_loop f n x y) with (R_OK, s') by (symmetry; exact Hs) end.
  unfold input_frame_done. cbn [is_in in_frames_processed in_frames_count in_ext_size].
  match goal with |- context [if ?x then _ else _] => destruct x end; [|reflexivity].
  match goal with |- context [if ?x then _ else _] => destruct x end.
  - unfold in_set_state. cbn [is_in in_state full_set_union fs_full fl_union]. apply input_finished_pass.
  - unfold in_set_state. cbn [is_in in_state full_set_union fs_full fl_union]. reflexivity.
Qed.
Lemma add_input_succ : forall a v, am_value a < two64 -> v < two64 -> am_value a + v < two64 ->
  amounts_add_input a v = (SW_OK, am_set_value a (am_value a + v)).
Proof.
  intros a v H1 H2 H3. unfold amounts_add_input. rewrite checked_add_u64_exact by assumption.
  replace (am_value a + v <? two64) with true by (symmetry; apply N.ltb_lt; exact H3). reflexivity.
Qed.

Lemma describe_frame : forall d data, describe_cmd d 0x12 data =
  if num 33 1 data =? 0 then
    on_inputs (fun l => l ++ [mk_si (slice 0 32 data) (num 34 8 data) (num 32 1 data) [frame_tokens data]
                                (num (43 + 40 * frame_ntokens data + 16) 4 data) []]) d
  else on_inputs (upd_last (fun i => mk_si (si_id i) (si_value i) (si_count i)
                                       (si_frames i ++ [frame_tokens data]) (si_ext_len i) (si_ext i))) d.
Proof. reflexivity. Qed.

Definition exec_frame (E : env) (key : bytes) (op : p2pk) (data : bytes) : out p2pk :=
  bind (parse_input_frame E key data) (fun f =>
              bind (if if_index f =? 0
                    then p2pk_add_input op (if_box_id f) (if_value f) (if_frames_count f) (if_ext_len f)
                    else Ok op) (fun op =>
              p2pk_add_input_tokens op (if_box_id f) (if_index f) (if_tokens f))).

Lemma parsed_ext : forall E key data f, bytes_ok data = true -> parse_input_frame E key data = Ok f ->
  (43 + 40 * frame_ntokens data + 16 <= length data)%nat -> (frame_ntokens data <= 4)%nat ->
  num 33 1 data = 0 -> (43 + 40 * frame_ntokens data + 16 + 4 <= length data)%nat.
Proof.
  intros E key data f Hok H El En Z. unfold parse_input_frame in H.
  destruct (input_frame_data_length data =? 0); [discriminate|].
  destruct (negb (bytes_eqb _ _)); [discriminate|].
  assert (Btc : num 42 1 data < 256) by apply (num_bound 42 1 data Hok).
  unfold frame_ntokens in *. set (tc := num 42 1 data) in *.
  rewrite read_bytes_ex in H by (unfold ERGO_ID_LEN; lia). unfold ERGO_ID_LEN in H. cbn [rd bind] in H.
  unfold read_u8, read_u64, read_u32 in H.
  rewrite read_be_ex in H by (rewrite skipn_length; lia). cbn [rd bind] in H. rewrite skipn_add in H.
  rewrite read_be_ex in H by (rewrite skipn_length; lia). cbn [rd bind] in H. rewrite skipn_add in H.
  rewrite read_be_ex in H by (rewrite skipn_length; lia). cbn [rd bind] in H. rewrite skipn_add in H.
  rewrite read_be_ex in H by (rewrite skipn_length; lia). cbn [rd bind] in H. rewrite skipn_add in H.
  change (num 0 1 (skipn (32 + 1 + 1 + 8) data)) with tc in H. change (num 0 1 (skipn (32 + 1) data)) with (num 33 1 data) in H.
  unfold FRAME_PAIR_SIZE, FRAME_SIGNATURE_LEN in H.
  assert (E2 : N.to_nat (u8 (tc * 40)) = (40 * N.to_nat (tc mod 32))%nat).
  { unfold u8, two8. zify; Z.to_euclidean_division_equations; lia. }
  rewrite E2 in H. destruct (_ <? _); [discriminate|]. rewrite Z, N.eqb_refl, skipn_add in H.
  apply bind_ok in H as ([ext l5] & R5 & _). apply rd_ok in R5.
  apply read_be_spec in R5 as (b5 & D5 & L5 & _). apply (f_equal (@length N)) in D5. rewrite skipn_length, app_length in D5. lia.
Qed.

Lemma frame_accepted : forall E s key d h op data, bytes_ok data = true -> blen data <= 255 -> wf E d h -> op_tx E s d h op ->
  okb (exec_frame E key op data) -> SpecAccept.frame_ok E key d h data (describe_cmd d 0x12 data).
Proof.
  intros E s key d h op data Hok Hmax W T [op' H].
  destruct (add_input_frame_ok E s key d h op data op' Hok Hmax W T H) as (W' & T' & (pre & i & fr & Ei & Ef & Eid & Eix & Elt & E0 & El & En & Et)).
  unfold exec_frame in H. apply bind_ok in H as (f & Hp & H).
  pose proof T' as (_ & _ & _ & Ha & _). 
  assert (Wi : in_wf i). { pose proof (w_in_wf _ _ _ W') as F. rewrite Ei in F. apply Forall_snoc in F. tauto. }
  split. { apply tokens_in_done. assert (X : sx_inputs (describe_cmd d 0x12 data) <> []) by (rewrite Ei; apply snoc_not_nil).
    apply (w_in_tokens _ _ _ W') in X. rewrite describe_frame in X. destruct (num 33 1 data =? 0); exact X. }
  split; [split; [exact El|split; [exact En|exact Et]]|].
  split.
  { rewrite describe_frame in Ei, W'. destruct (N.eqb_spec (num 33 1 data) 0) as [Z|Z].
    - left. assert (fr = []). { rewrite Z in Eix. destruct fr; [reflexivity|unfold blen in Eix; cbn in Eix; lia]. } subst fr.
      destruct (E0 eq_refl) as [C1 C2]. split; [exact Z|]. split; [lia|].
      eapply (w_in_last _ _ _ W'). cbn [on_inputs sx_inputs]. reflexivity.
    - right. cbn [on_inputs sx_inputs] in Ei.
      destruct (snoc_cases _ (sx_inputs d)) as [Ex|(pre0 & i0 & Ex)]; [rewrite Ex in Ei; destruct pre; discriminate Ei|].
      rewrite Ex, upd_last_snoc in Ei. apply snoc_inj in Ei as [-> Ei]. subst i. cbn [si_frames si_id si_count si_value] in *.
      apply snoc_inj in Ef as [Ef _]. exists pre, i0. split; [exact Ex|]. split; [congruence|]. split; [lia|]. split; congruence. }
  split; [apply W'|]. split.
  { intros Z off. split; [unfold off; eapply parsed_ext; eassumption|].
    rewrite describe_frame, Z, N.eqb_refl in Ei. cbn [on_inputs sx_inputs] in Ei. apply snoc_inj in Ei as [_ <-].
    split; [apply (iw_ext1 _ Wi)|apply (iw_ext_len _ Wi)]. }
  split; [eapply amounts_range; eassumption|].
  rewrite <- blen_app, <- table_undeclared. pose proof (ar_table _ _ (ra_tokens _ _ Ha)) as L. rewrite (ra_table _ _ Ha) in L.
  unfold blen, TOKENS_MAX. lia.
Qed.

Lemma inputs_stage : forall E d h, wf E d h -> tokens_in d h = true -> inputs_in d h = false ->
  sx_outputs d = [] /\ sx_data d = [] /\ phase_of d h = FL_INPUTS_STARTED.
Proof.
  intros E d h W Ht Hi. split; [|split].
  - destruct (sx_outputs d) eqn:X; [reflexivity|]. exfalso. assert (Y : sx_outputs d <> []) by congruence.
    apply (w_out_in _ _ _ W) in Y as [Y _]. congruence.
  - destruct (sx_data d) eqn:X; [reflexivity|]. exfalso. assert (Y : sx_data d <> []) by congruence.
    apply (w_data_inputs _ _ _ W) in Y. congruence.
  - unfold phase_of. rewrite Ht, Hi. reflexivity.
Qed.

Lemma frame_fits : forall E key d h data d', SpecAccept.frame_ok E key d h data d' -> sx_outputs d' = [] ->
  (forall x, (Z.of_N (amount_of x (input_tokens d')) < 2 ^ 63)%Z) /\ (length (table_of d') <= 20)%nat /\ total_in d' < two64.
Proof.
  intros E key d h data d' (_ & _ & _ & _ & _ & (R1 & _ & R2) & Q) Ho. split; [|split].
  - intro x. specialize (R2 x). rewrite balance_inputs in R2 by exact Ho. lia.
  - rewrite table_undeclared, app_length. unfold blen, TOKENS_MAX in Q. lia.
  - exact R1.
Qed.

Lemma add_input_unfold : forall op id v n x, op_state_of op = OP_TX_STARTED \/ op_state_of op = OP_INPUTS_STARTED ->
  p2pk_add_input op id v n x =
  bind (tx_call op (fun s => full_add_input s id n x)) (fun c =>
      bind (tx_call c full_set_input_callback) (fun c =>
      match amounts_add_input (op_amounts c) v with
      | (SW_OK, a) => Ok (mk_p2pk OP_INPUTS_STARTED (op_key c) (op_path c) (op_hash c) (op_network c) a (op_union_of c))
      | (s, _) => Fail s
      end)).
Proof. intros op id v n x [H|H]; unfold p2pk_add_input; rewrite H; reflexivity. Qed.

Lemma frame_admissible : forall E s key d h op data, bytes_ok data = true -> blen data <= 255 -> wf E d h -> op_tx E s d h op ->
  SpecAccept.frame_ok E key d h data (describe_cmd d 0x12 data) -> okb (exec_frame E key op data).
Proof.
  intros E s key d h op data Hok Hmax W T A. pose proof A as (Tk & At & Or & Li & Fx & _).
  pose proof At as (El & En & _). rewrite <- tokens_in_done in Tk.
  destruct (parse_input_frame_succ E key data Hok At) as [f Hp].
  { intro Z. apply Fx in Z as (Z & _). exact Z. }
  destruct (parse_input_frame_bounds _ _ _ _ Hok Hp) as (B1 & B2 & B3 & B4).
  assert (Hen : Forall (fun e => length e = 40%nat) (entries 40 (if_tokens f)) /\ SignInput.frame_ok E key data f).
  { assert (X : if_tokens f = slice 43 (40 * frame_ntokens data) data).
    { pose proof Hp as H. unfold parse_input_frame in H.
      destruct (input_frame_data_length data =? 0); [discriminate|].
      destruct (negb (bytes_eqb _ _)); [discriminate|].
      assert (Btc : num 42 1 data < 256) by apply (num_bound 42 1 data Hok).
      unfold frame_ntokens in *. set (tc := num 42 1 data) in *.
      rewrite read_bytes_ex in H by (unfold ERGO_ID_LEN; lia). unfold ERGO_ID_LEN in H. cbn [rd bind] in H.
      unfold read_u8, read_u64, read_u32 in H.
      rewrite read_be_ex in H by (rewrite skipn_length; lia). cbn [rd bind] in H. rewrite skipn_add in H.
      rewrite read_be_ex in H by (rewrite skipn_length; lia). cbn [rd bind] in H. rewrite skipn_add in H.
      rewrite read_be_ex in H by (rewrite skipn_length; lia). cbn [rd bind] in H. rewrite skipn_add in H.
      rewrite read_be_ex in H by (rewrite skipn_length; lia). cbn [rd bind] in H. rewrite skipn_add in H.
      change (num 0 1 (skipn (32 + 1 + 1 + 8) data)) with tc in H. change (num 0 1 (skipn (32 + 1) data)) with (num 33 1 data) in H.
      unfold FRAME_PAIR_SIZE, FRAME_SIGNATURE_LEN in H.
      assert (E2 : N.to_nat (u8 (tc * 40)) = (40 * N.to_nat (tc mod 32))%nat).
      { unfold u8, two8. zify; Z.to_euclidean_division_equations; lia. }
      rewrite E2 in H. destruct (_ <? _); [discriminate|]. destruct (num 33 1 data =? 0).
      - apply bind_ok in H as ([ext l5] & R5 & H). apply (f_equal (fun x => match x with Ok y => if_tokens y | _ => [] end)) in H. symmetry. exact H.
      - apply (f_equal (fun x => match x with Ok y => if_tokens y | _ => [] end)) in H. symmetry. exact H. }
    assert (Y : Forall (fun e => length e = 40%nat) (entries 40 (if_tokens f))) by (rewrite X; apply frame_tokens_whole; exact El).
    split; [exact Y|]. eapply parse_input_frame_ok; eassumption. }
  destruct Hen as [Hen F].
  destruct (op_fs_of _ _ _ _ _ T) as (t & Hu & Hfs & Hli).
  pose proof T as (_ & Hst & _ & Ha & _). pose proof Ha as [A1 A2 A3 A4 A5].
  set (toks := map (fun e => (slice 0 32 e, num 32 8 e)) (entries 40 (if_tokens f))).
  assert (Etoks : toks = frame_tokens data) by (unfold toks, frame_tokens; rewrite <- (fo_tokens _ _ _ _ F); reflexivity).
  unfold exec_frame. rewrite Hp. cbn [bind]. rewrite (fo_index _ _ _ _ F).
  rewrite describe_frame in A, Li. destruct Or as [(Z & Cn & Cp)|(pre & i & Ei & Eid & Zp & Eix & Elt)].
  - (* a new input *)
    rewrite Z, N.eqb_refl in A, Li |- *. specialize (Fx Z). cbv zeta in Fx. destruct Fx as (_ & Fx1 & Fx2).
    cbn [on_inputs sx_inputs] in Li. rewrite blen_app in Li. change (blen [_]) with 1 in Li.
    assert (Dn : done_inputs d = blen (sx_inputs d)) by (unfold done_inputs; apply count_all; assumption).
    assert (Hin : inputs_in d h = false) by (unfold inputs_in; rewrite Dn; apply N.eqb_neq; lia).
    destruct (inputs_stage _ _ _ W Tk Hin) as (Ho & Hd & Ep).
    assert (Eoi : tx_output t = None) by (unfold last_info in Hli; rewrite Ho in Hli; exact Hli).
    set (d' := on_inputs _ d) in A. assert (Ho' : sx_outputs d' = []) by exact Ho.
    destruct (frame_fits _ _ _ _ _ _ A Ho') as (Q1 & Q2 & Q3).
    assert (Eit : input_tokens d' = input_tokens d ++ toks).
    { unfold input_tokens, d'. cbn [on_inputs sx_inputs]. rewrite map_app, concat_app. cbn [map concat si_frames].
      rewrite !app_nil_r, <- Etoks. reflexivity. }
    assert (Etot : total_in d' = total_in d + num 34 8 data).
    { rewrite (total_in_snoc d' (sx_inputs d) _ eq_refl). reflexivity. }
    destruct (sums_no_outputs d Ho) as [Z1 Z2]. rewrite Z1, Z2 in A2.
    assert (Hu2 : exists c0 b0, union_of E d h = FU_INPUT c0 b0 /\ in_state c0 = IN_FINISHED).
    { destruct (snoc_cases _ (sx_inputs d)) as [Ei|(pre & i & Ei)].
      - exists input_finished_ctx, false. split; [|reflexivity]. unfold union_of. rewrite Ho, Ei, Tk. reflexivity.
      - exists (in_of i), true. split; [apply (union_inputs E d h pre i); assumption|].
        rewrite Ei in Cp. apply Forall_snoc in Cp as [_ Ci]. unfold input_complete in Ci. apply andb_true_iff in Ci as [C1 C2].
        unfold in_of, frames_in. rewrite C1, C2. reflexivity. }
    destruct Hu2 as (c0 & b0 & Hu2 & Hf2).
    rewrite okb_bind.
    set (fi := mk_full FL_INPUTS_STARTED (sh_inputs h - blen (sx_inputs d)) (sh_data h) (sh_outputs h) (sh_tokens h)
              (FU_INPUT (mk_input IN_FRAMES_STARTED (if_box_id f) (if_frames_count f) 0 (if_ext_len f)) true)).
    exists (mk_p2pk OP_INPUTS_STARTED (op_key op) (op_path op) (ss_prefix s ++ tx_bytes E d h) (op_network op)
       (am_set_value (op_amounts op) (am_value (op_amounts op) + if_value f)) (OU_TX (mk_tx fi None (tx_last_approved t)))).
    split.
    { assert (Est : op_state_of op = OP_TX_STARTED \/ op_state_of op = OP_INPUTS_STARTED).
      { rewrite Hst, (op_phase_none _ _ Ho). destruct (sx_inputs d); auto. }
      rewrite (add_input_unfold _ _ _ _ _ Est).
      assert (S1 : tx_call op (fun s0 => full_add_input s0 (if_box_id f) (if_frames_count f) (if_ext_len f)) =
        Ok (op_put op t (mk_fs (full_set_union fi (FU_INPUT (mk_input IN_FRAMES_STARTED (if_box_id f) (if_frames_count f) 0 (if_ext_len f)) false))
                    (ss_prefix s ++ tx_bytes E d h) (op_amounts op, None)))).
      { unfold tx_call. rewrite Hu, Hfs, Eoi. unfold full_add_input, fs_of.
        cbn [fs_full full_of fl_state fl_union fl_inputs_count fs_hash fs_cb]. rewrite Ep, Hu2, Hf2, Dn.
        replace (sh_inputs h - blen (sx_inputs d) =? 0) with false by (symmetry; apply N.eqb_neq; lia).
        unfold input_init. rewrite (fo_ext _ _ _ _ F) by (rewrite (fo_index _ _ _ _ F); exact Z).
        replace ((_ =? 1) || (MAX_TX_DATA_PART_LEN <? _)) with false.
        2:{ symmetry. apply orb_false_iff. split; [apply N.eqb_neq; exact Fx1|apply N.ltb_ge; exact Fx2]. }
        cbn [res_pass tx_result sw_of_res]. unfold fs_with_full, full_set_union, fi.
        cbn [fs_full full_of fl_state fl_union fl_inputs_count fl_data_inputs_count fl_outputs_count fl_distinct fs_hash fs_cb].
        rewrite Ep, Dn, Hd, blen_nil, N.sub_0_r. unfold done_outputs. rewrite Ho, count_nil, N.sub_0_r. reflexivity. }
      rewrite S1. cbn [bind].
      assert (S2 : forall op1 t1 H1 A1, op1 = op_put op t1 (mk_fs (full_set_union fi (FU_INPUT (mk_input IN_FRAMES_STARTED (if_box_id f) (if_frames_count f) 0 (if_ext_len f)) false)) H1 A1) ->
         tx_call op1 full_set_input_callback = Ok (op_put op t1 (mk_fs fi H1 A1))).
      { intros op1 t1 H1 [a1 o1] ->. reflexivity. }
      rewrite (S2 _ _ _ _ eq_refl). cbn [bind op_put op_amounts fs_cb fst snd].
      assert (V : am_value (op_amounts op) = total_in d) by lia.
      rewrite (fo_value _ _ _ _ F). rewrite add_input_succ; [reflexivity|rewrite V; exact A3|rewrite <- (fo_value _ _ _ _ F); exact B3|].
      rewrite V, <- Etot. exact Q3. }
    unfold p2pk_add_input_tokens. cbn [op_state_of].
    match goal with |- okb (tx_call ?c ?call) => rewrite (okb_tx_call c (mk_tx fi None (tx_last_approved t)) call eq_refl) end.
    unfold op_fs. cbn [op_hash op_amounts tx_full tx_output]. unfold fi.
    apply (frame_pass _ _ _ _ _ _ _ _ _ _ _ _ _ (balance d)); try assumption; try reflexivity.
    + cbn [fst]. destruct A5. constructor; assumption.
    + intro x. rewrite balance_inputs by assumption. lia.
    + rewrite (fo_count _ _ _ _ F). exact Cn.
    + intro x. fold toks. rewrite balance_inputs by assumption. specialize (Q1 x). rewrite Eit, amount_of_app in Q1. lia.
    + cbn [fst am_set_value am_table]. fold toks. rewrite A4. unfold table_of in Q2 |- *. rewrite Eit, map_app, fold_left_app in Q2. exact Q2.
  - (* a further frame *)
    assert (Z : num 33 1 data <> 0) by lia. rewrite (proj2 (N.eqb_neq _ _) Z) in A, Li |- *. cbn [bind].
    assert (Hfi : frames_in i = false) by (unfold frames_in; apply N.eqb_neq; lia).
    assert (Hic : input_complete i = false) by (unfold input_complete; fold (frames_in i); rewrite Hfi; reflexivity).
    pose proof (w_in_last _ _ _ W _ _ Ei) as Cp.
    assert (Dn := done_snoc d pre i Ei Cp). rewrite Hic, N.add_0_r in Dn.
    pose proof (w_in_le _ _ _ W) as X. rewrite Ei, blen_app in X. change (blen [i]) with 1 in X.
    assert (Hin : inputs_in d h = false) by (unfold inputs_in; rewrite Dn; apply N.eqb_neq; lia).
    destruct (inputs_stage _ _ _ W Tk Hin) as (Ho & Hd & Ep).
    assert (Eoi : tx_output t = None) by (unfold last_info in Hli; rewrite Ho in Hli; exact Hli).
    set (d' := on_inputs _ d) in A. assert (Ho' : sx_outputs d' = []) by exact Ho.
    destruct (frame_fits _ _ _ _ _ _ A Ho') as (Q1 & Q2 & Q3).
    assert (Eit : input_tokens d' = input_tokens d ++ toks).
    { unfold input_tokens, d'. cbn [on_inputs sx_inputs]. rewrite Ei, upd_last_snoc, !map_app, !concat_app. cbn [map concat si_frames].
      rewrite concat_app, !app_nil_r, <- Etoks. cbn [concat]. rewrite app_nil_r, app_assoc. reflexivity. }
    unfold p2pk_add_input_tokens. rewrite Hst, (op_phase_none _ _ Ho).
    replace (match sx_inputs d with [] => OP_TX_STARTED | _ => OP_INPUTS_STARTED end) with OP_INPUTS_STARTED
      by (rewrite Ei; destruct pre; reflexivity).
    rewrite (okb_tx_call _ _ _ Hu), Hfs, Eoi.
    assert (Efs : fs_of E s d h (op_amounts op, None) =
      mk_fs (mk_full FL_INPUTS_STARTED (sh_inputs h - done_inputs d) (sh_data h - blen (sx_data d)) (sh_outputs h - done_outputs d) (sh_tokens h)
              (FU_INPUT (mk_input IN_FRAMES_STARTED (si_id i) (si_count i) (blen (si_frames i)) (si_ext_len i - blen (si_ext i))) true))
           (ss_prefix s ++ tx_bytes E d h) (op_amounts op, None)).
    { unfold fs_of, full_of. rewrite Ep, (union_inputs E d h pre i Ho Ei). unfold in_of. rewrite Hfi. reflexivity. }
    rewrite Efs. rewrite (fo_id _ _ _ _ F).
    apply (frame_pass _ _ _ _ _ _ _ _ _ _ _ _ _ (balance d)); try assumption.
    + intro x. rewrite balance_inputs by assumption. lia.
    + symmetry. exact Eid.
    + lia.
    + intro x. fold toks. rewrite balance_inputs by assumption. specialize (Q1 x). rewrite Eit, amount_of_app in Q1. lia.
    + cbn [fst]. fold toks. rewrite A4. unfold table_of in Q2 |- *. rewrite Eit, map_app, fold_left_app in Q2. exact Q2.
Qed.
