(** Why a command of a signing session fails: the commands up to the opening of an output. *)
From Verif Require Import Lib Gve CodecProofs Env SpecVlq SpecTree SpecTrace SpecTx SpecAmounts SpecRules SpecAccept SpecStatus Bip32 ErgoTree
  TxTable TxBox TxInput TxFull Amounts OutputInfo InputFrame P2pkOp App BoxProofs AmountProofs SignInv SignInput SignData SignOutput AcceptInput AcceptFrame.

#[local] Arguments N.eqb : simpl never.
#[local] Arguments N.ltb : simpl never.
#[local] Arguments N.leb : simpl never.
#[local] Arguments N.sub : simpl never.
#[local] Arguments blen : simpl never.
#[local] Arguments num : simpl never.
#[local] Arguments slice : simpl never.

Ltac fails H := let K := fresh in assert (K := f_equal (fun x => match x with Fail s => s | _ => SW_OK end) H); cbn in K; subst.

Lemma tx_call_why : forall c t call s, op_union_of c = OU_TX t -> tx_call c call = Fail s ->
  res_pass (fst (call (op_fs c t))) = false /\ s = sw_of_res (fst (call (op_fs c t))).
Proof.
  intros c t call s Hu H. unfold tx_call in H. rewrite Hu in H. destruct (call (op_fs c t)) as [r x]. cbn [fst].
  destruct r; cbn in H; try discriminate; split; try reflexivity; cbn; congruence.
Qed.

(** ** 0x10 *)

Lemma short7 : forall data s, parse_tx_start data = Fail s ->
  s = SW_NOT_ENOUGH_DATA /\ (length data < 7)%nat \/ s = SW_TOO_MUCH_DATA /\ (7 < length data)%nat.
Proof.
  intros data s H. do 7 (destruct data as [|? data]; [left; split; [cbv in H; congruence|cbn; lia]|]).
  destruct data; [cbv in H; discriminate|]. right. split; [cbv in H; congruence|cbn; lia].
Qed.
Lemma start_why : forall s op data e, op_new s op ->
  bind (parse_tx_start data) (fun '(i, d, t, o) => p2pk_start_tx op i d o t) = Fail e -> header_error s_empty data e.
Proof.
  intros s op data e (Hfix & Hst & Hh & Ha & tok & Hu) H.
  destruct (parse_tx_start data) as [[[[i d] t] o]|s0] eqn:P.
  2:{ cbn [bind] in H. assert (s0 = e) as -> by congruence. apply short7 in P as [[-> P]|[-> P]]; exact P. }
  apply parse_tx_start_ok in P as (-> & -> & -> & -> & L). cbn [bind] in H.
  unfold p2pk_start_tx in H. rewrite Hst in H. unfold full_init in H. rewrite Ha in H.
  destruct (N.eqb_spec (num 0 2 data) 0) as [E0|E0]; [fails H; exact E0|].
  destruct (N.eqb_spec (num 5 2 data) 0) as [E1|E1]; [fails H; exact E1|].
  unfold table_init in H. cbn [op_tget amounts_init am_table fst] in H. rewrite blen_nil in H.
  change (negb (0 =? 0)) with false in H. cbn [orb] in H. unfold TOKEN_MAX_COUNT in H.
  destruct (20 <? num 4 1 data) eqn:E2; [fails H; cbn; unfold TOKENS_MAX; lia|].
  destruct (num 4 1 data =? 0); discriminate.
Qed.
Lemma restart_why : forall E s d h op data e, wf E d h -> op_tx E s d h op ->
  bind (parse_tx_start data) (fun '(i, d, t, o) => p2pk_start_tx op i d o t) = Fail e -> header_error d data e.
Proof.
  intros E s d h op data e W T H. pose proof T as (_ & Hst & _).
  destruct (parse_tx_start data) as [[[[i n] t] o]|s0] eqn:P.
  2:{ cbn [bind] in H. assert (s0 = e) as -> by congruence. apply short7 in P as [[-> P]|[-> P]]; exact P. }
  cbn [bind] in H. unfold p2pk_start_tx in H. rewrite Hst in H. unfold op_phase in H.
  assert (e = SW_BAD_STATE) as -> by (destruct (sx_outputs d); [destruct (sx_inputs d)|destruct (outputs_in d h)]; congruence).
  cbn. unfold no_header. rewrite (w_head _ _ _ W). discriminate.
Qed.

(** ** 0x11 *)

Lemma entries_ne : forall n l, (0 < n)%nat -> (0 < length l)%nat -> entries n l = firstn n l :: entries n (skipn n l).
Proof.
  intros n l Hn Hl. destruct l as [|x l]; [cbn in Hl; lia|]. unfold entries at 1. cbn [length entries_fuel]. f_equal.
  apply entries_fuel_enough; [exact Hn|]. rewrite skipn_length. cbn [length]. lia.
Qed.
Lemma whole_bad : forall n l, (0 < n)%nat -> ~ Forall (fun e => length e = n) (entries n l) -> ~ entries_of n l.
Proof. intros n l Hn H K. apply H. apply entries_whole; assumption. Qed.

Lemma read_bytes_short : forall n l, (length l < n)%nat -> read_bytes n l = None.
Proof. intros n l H. unfold read_bytes. replace (n <=? length l)%nat with false by (symmetry; apply Nat.leb_gt; exact H). reflexivity. Qed.
Lemma table_loop_why : forall fuel n data t r t', (length data < fuel)%nat ->
  table_add_loop fuel n data t = (r, t') ->
  r = R_OK \/ r = R_TOO_MANY_TOKENS /\ n < blen (t ++ entries 32 data) \/
  r = R_BAD_TOKEN_ID /\ ~ Forall (fun e => length e = 32%nat) (entries 32 data).
Proof.
  induction fuel as [|k IH]; intros n data t r t' Hf H; [lia|]. cbn [table_add_loop] in H.
  destruct data as [|x data]; [left; congruence|]. remember (x :: data) as inp eqn:Ei.
  assert (Li : (0 < length inp)%nat) by (subst; cbn; lia). clear Ei.
  rewrite (entries_ne 32 inp) by lia. unfold parse_token in H.
  destruct (N.leb_spec n (blen t)) as [L|L].
  { right. left. split; [congruence|]. rewrite blen_app, blen_cons. lia. }
  destruct (le_lt_dec 32 (length inp)) as [L32|L32].
  - rewrite read_bytes_ex in H by (unfold ERGO_ID_LEN; lia). unfold ERGO_ID_LEN in H.
    apply IH in H; [|rewrite skipn_length; lia].
    destruct H as [H|[[H1 H2]|[H1 H2]]]; [left; exact H|right; left|right; right]; (split; [exact H1|]).
    + rewrite <- app_assoc in H2. exact H2.
    + intro F. apply H2. exact (Forall_inv_tail F).
  - right. right. split.
    + rewrite read_bytes_short in H by exact L32. congruence.
    + intro F. apply Forall_inv in F. rewrite firstn_length in F. lia.
Qed.
Lemma table_add_why : forall n data t, res_pass (fst (table_add n data t)) = false ->
  fst (table_add n data t) = R_TOO_MANY_TOKENS /\ n < blen (t ++ entries 32 data) \/
  fst (table_add n data t) = R_BAD_TOKEN_ID /\ ~ entries_of 32 data.
Proof.
  intros n data t. unfold table_add. destruct (table_add_loop (S (length data)) n data t) as [r t'] eqn:E.
  apply table_loop_why in E; [|lia]. destruct E as [->|[[-> H]|[-> H]]]; cbn [fst].
  - destruct (table_is_finished n t'); discriminate.
  - intros _. left. auto.
  - intros _. right. split; [reflexivity|apply whole_bad; [lia|exact H]].
Qed.

Lemma tokens_why : forall E s d h op data e, wf E d h -> op_tx E s d h op ->
  p2pk_add_tokens op data = Fail e -> tokens_error d h data e.
Proof.
  intros E s d h op data e W T H. destruct (op_fs_of _ _ _ _ _ T) as (t & Hu & Hfs & Hli).
  pose proof T as (_ & Hst & _ & Ha & _). unfold p2pk_add_tokens in H.
  destruct (tokens_in d h) eqn:Et.
  - assert (e = SW_BAD_STATE) as ->; [|apply tokens_in_done; exact Et].
    destruct (op_state_of op); try congruence.
    destruct (tx_call_why _ _ _ _ Hu H) as [_ He]. clear H. subst e. rewrite Hfs. unfold full_add_tokens. cbn [fs_of fs_full full_of fl_state].
    unfold phase_of. rewrite Et. cbn [negb].
    destruct (inputs_in d h); cbn [negb]; [destruct (data_in d h); cbn [negb]; [destruct (outputs_in d h)|]|]; reflexivity.
  - destruct (no_tokens_no_inputs _ _ _ W Et) as [Ei Eo].
    assert (Ep : op_phase d h = OP_TX_STARTED) by (unfold op_phase; rewrite Ei, Eo; reflexivity).
    rewrite Hst, Ep in H. destruct (tx_call_why _ _ _ _ Hu H) as [H' He]. clear H. rename H' into H. subst e. rewrite Hfs in *. unfold full_add_tokens in *.
    cbn [fs_of fs_full full_of fl_state fl_distinct fs_cb] in *.
    unfold phase_of in *. rewrite Et in *. cbn [negb] in *. unfold op_tget in *. cbn [fst] in *.
    assert (Etab : am_table (op_amounts op) = sx_tokens d).
    { rewrite (ra_table _ _ Ha). unfold table_of, input_tokens. rewrite Ei. reflexivity. }
    rewrite Etab in *. pose proof (table_add_why (sh_tokens h) data (sx_tokens d)) as Q.
    destruct (table_add (sh_tokens h) data (sx_tokens d)) as [r t']. cbn [fst] in Q.
    destruct r; try discriminate H; specialize (Q eq_refl); destruct Q as [[Q1 Q2]|[Q1 Q2]]; try discriminate Q1; exact Q2.
Qed.

(** ** 0x13 *)

Lemma no_outputs_no_inputs : forall E d h, wf E d h -> sx_inputs d = [] -> sx_outputs d = [] /\ inputs_in d h = false.
Proof.
  intros E d h W Ei. assert (Y : inputs_in d h = false).
  { unfold inputs_in, done_inputs. rewrite Ei, count_nil. apply N.eqb_neq. pose proof (w_inputs _ _ _ W). lia. }
  split; [|exact Y]. destruct (sx_outputs d) eqn:X; [reflexivity|]. exfalso.
  assert (Z : sx_outputs d <> []) by congruence. apply (w_out_in _ _ _ W) in Z as [Z _]. congruence.
Qed.
Lemma cur_in : forall d pre i i0, sx_inputs d = pre ++ [i] -> current_input d i0 -> i0 = i.
Proof. intros d pre i i0 Ei (pre0 & K). rewrite Ei in K. apply snoc_inj in K as [_ ->]. reflexivity. Qed.

Lemma extension_why : forall E s d h op data e, wf E d h -> op_tx E s d h op ->
  p2pk_add_input_context_extension op data = Fail e -> extension_error d data e.
Proof.
  intros E s d h op data e W T H. destruct (op_fs_of _ _ _ _ _ T) as (t & Hu & Hfs & Hli).
  pose proof T as (_ & Hst & _ & Ha & _). unfold p2pk_add_input_context_extension in H. rewrite Hst in H.
  assert (Bad : inputs_in d h = true -> ~ exists i, current_input d i /\ blen (si_frames i) = si_count i /\ blen (si_ext i) < si_ext_len i).
  { intros X (i0 & (pre0 & K) & K1 & K2). apply (inputs_all _ _ _ _ _ W X) in K. unfold input_complete in K.
    apply andb_true_iff in K as [_ K]. apply N.eqb_eq in K. lia. }
  destruct (snoc_cases _ (sx_inputs d)) as [Ei|(pre & i & Ei)].
  { destruct (no_outputs_no_inputs _ _ _ W Ei) as [Eo _]. rewrite (op_phase_none _ _ Eo), Ei in H.
    assert (e = SW_BAD_STATE) as -> by congruence. intros (i & (pre & K) & _). rewrite Ei in K. destruct pre; discriminate. }
  assert (Hne : sx_inputs d <> []) by (rewrite Ei; apply snoc_not_nil).
  pose proof (w_in_tokens _ _ _ W Hne) as Htok.
  destruct (sx_outputs d) as [|o0 os] eqn:Eo.
  2:{ assert (Hneo : sx_outputs d <> []) by congruence. rewrite (op_phase_some _ _ Hneo) in H.
      assert (e = SW_BAD_STATE) as -> by (destruct (outputs_in d h); congruence). apply Bad. apply (w_out_in _ _ _ W). exact Hneo. }
  rewrite (op_phase_none _ _ Eo) in H. replace (match sx_inputs d with [] => OP_TX_STARTED | _ => OP_INPUTS_STARTED end) with OP_INPUTS_STARTED in H
    by (destruct (sx_inputs d); [congruence|reflexivity]).
  destruct (tx_call_why _ _ _ _ Hu H) as [H' He]. clear H. rename H' into H. subst e. rewrite Hfs in *. unfold full_add_input_context_extension in *. cbn [fs_of fs_full full_of fl_state] in *.
  unfold phase_of in *. rewrite Htok in *. cbn [negb] in *.
  destruct (inputs_in d h) eqn:Hin; cbn [negb] in *.
  { destruct (data_in d h); cbn [negb] in *; [destruct (outputs_in d h); cbn [negb] in *|]; apply Bad; reflexivity. }
  unfold on_input in *. cbn [fs_of fs_full full_of fl_union fs_hash fs_cb] in *. rewrite (union_inputs E d h pre i Eo Ei) in *.
  pose proof (w_in_wf _ _ _ W) as Fw. rewrite Ei in Fw. apply Forall_snoc in Fw as [_ Iw].
  unfold input_add_context_extension in *. cbn [is_in in_of in_state in_ext_size] in *. unfold frames_in in *.
  destruct (N.eqb_spec (blen (si_frames i)) (si_count i)) as [E1|E1]; cbn [negb] in *.
  2:{ cbn. intros (i0 & K & K1 & _). rewrite (cur_in _ _ _ _ Ei K) in K1. contradiction. }
  pose proof (iw_ext _ Iw) as We.
  destruct (N.eqb_spec (blen (si_ext i)) (si_ext_len i)) as [E2|E2].
  { cbn. intros (i0 & K & _ & K1). rewrite (cur_in _ _ _ _ Ei K) in K1. lia. }
  destruct (si_ext_len i - blen (si_ext i) <? blen data) eqn:E3.
  { cbn. exists i. split; [exists pre; exact Ei|]. rewrite blen_app. apply N.ltb_lt in E3. lia. }
  exfalso. cbv zeta in H. match type of H with context [if ?b then _ else _] => destruct b end; [|discriminate].
  cbn [fst snd] in H. rewrite input_finished_pass in H. discriminate.
Qed.

(** ** 0x14 *)

Lemma data_loop_why : forall fuel (s : fs cbctx) data r s', (length data < fuel)%nat ->
  data_inputs_loop fuel s data = (r, s') ->
  r = R_OK \/ r = R_TOO_MANY_DATA_INPUTS /\ fl_data_inputs_count (fs_full s) < blen (entries 32 data) \/
  r = R_BAD_DATA_INPUT /\ ~ Forall (fun e => length e = 32%nat) (entries 32 data).
Proof.
  induction fuel as [|k IH]; intros s data r s' Hf H; [lia|]. cbn [data_inputs_loop] in H.
  destruct data as [|x data]; [left; congruence|]. remember (x :: data) as inp eqn:Ei.
  assert (Li : (0 < length inp)%nat) by (subst; cbn; lia). clear Ei.
  rewrite (entries_ne 32 inp) by lia. rewrite blen_cons.
  destruct (N.eqb_spec (fl_data_inputs_count (fs_full s)) 0) as [E0|E0].
  { right. left. split; [unfold full_res_error in H; congruence|]. lia. }
  destruct (le_lt_dec 32 (length inp)) as [L32|L32].
  - rewrite read_bytes_ex in H by (unfold ERGO_ID_LEN; lia). unfold ERGO_ID_LEN in H.
    apply IH in H; [|rewrite skipn_length; lia]. cbn [fs_with_full fs_full full_set_data fl_data_inputs_count fs_feed] in H.
    destruct H as [H|[[H1 H2]|[H1 H2]]]; [left; exact H|right; left|right; right]; (split; [exact H1|]).
    + lia.
    + intro F. apply H2. exact (Forall_inv_tail F).
  - right. right. split.
    + rewrite read_bytes_short in H by exact L32. unfold full_res_error in H. congruence.
    + intro F. apply Forall_inv in F. rewrite firstn_length in F. lia.
Qed.
Lemma data_why : forall E s d h op data e, wf E d h -> op_tx E s d h op ->
  p2pk_add_data_inputs op data = Fail e -> data_error d h data e.
Proof.
  intros E s d h op data e W T H. destruct (op_fs_of _ _ _ _ _ T) as (t & Hu & Hfs & Hli).
  pose proof T as (_ & Hst & _ & Ha & _). unfold p2pk_add_data_inputs in H. rewrite Hst in H.
  destruct (sx_outputs d) as [|o0 os] eqn:Eo.
  2:{ assert (Hneo : sx_outputs d <> []) by congruence. rewrite (op_phase_some _ _ Hneo) in H.
      assert (e = SW_BAD_STATE) as -> by (destruct (outputs_in d h); congruence).
      right. apply data_in_done. apply (w_out_in _ _ _ W). exact Hneo. }
  rewrite (op_phase_none _ _ Eo) in H.
  destruct (sx_inputs d) as [|i0 is] eqn:Ei.
  { assert (e = SW_BAD_STATE) as -> by congruence. left. intro K. apply (inputs_in_done _ _ _ W) in K.
    destruct (no_outputs_no_inputs _ _ _ W Ei). congruence. }
  assert (Htok : tokens_in d h = true) by (apply (w_in_tokens _ _ _ W); congruence).
  destruct (tx_call_why _ _ _ _ Hu H) as [H' He]. clear H. rename H' into H. subst e. rewrite Hfs in *. unfold full_add_data_inputs in *.
  replace (fl_state (fs_full (fs_of E s d h (op_amounts op, tx_output t)))) with (phase_of d h) in * by reflexivity.
  unfold phase_of at 1 in H. unfold phase_of at 1. rewrite Htok in *. cbn [negb] in *.
  destruct (inputs_in d h) eqn:Hin; cbn [negb] in *.
  2:{ cbn. left. intro K. apply (inputs_in_done _ _ _ W) in K. congruence. }
  destruct (data_in d h) eqn:Hdi; cbn [negb] in *.
  { destruct (outputs_in d h); cbn [negb] in *; cbn; right; apply data_in_done; exact Hdi. }
  pose proof (w_data_le _ _ _ W) as Wd.
  destruct (data_inputs_loop (S (length data)) (fs_of E s d h (op_amounts op, tx_output t)) data) as [r1 s2] eqn:El.
  apply data_loop_why in El; [|lia]. cbn [fs_of fs_full full_of fl_data_inputs_count] in El.
  destruct El as [->|[[-> L]|[-> L]]].
  - exfalso. revert H. case_if; [|discriminate]. rewrite data_finished_pass. discriminate.
  - cbn. rewrite blen_app. lia.
  - cbn. apply whole_bad; [lia|exact L].
Qed.

(** ** 0x15 *)

Lemma short21 : forall data s, parse_output_init data = Fail s ->
  s = SW_NOT_ENOUGH_DATA /\ (length data < 21)%nat \/ s = SW_TOO_MUCH_DATA /\ (21 < length data)%nat.
Proof.
  intros data s H. destruct (le_lt_dec 21 (length data)) as [L|L].
  - unfold parse_output_init, read_u64, read_u32, read_u8 in H.
    do 5 (rewrite read_be_ex in H by (rewrite ?skipn_length; lia); cbn [rd bind] in H; rewrite ?skipn_add in H).
    destruct (skipn (8 + 4 + 4 + 1 + 4) data) as [|x l] eqn:Q; [discriminate|]. right.
    apply (f_equal (@length N)) in Q. rewrite skipn_length in Q. cbn [length] in Q. split; [unfold finished in H; congruence|lia].
  - left. split; [|exact L].
    do 21 (destruct data as [|? data]; [cbv in H; congruence|]). cbn in L. lia.
Qed.
Lemma output_why : forall E s d h op data e, wf E d h -> op_tx E s d h op ->
  bind (parse_output_init data) (fun '(v, t, hh, n, r) => p2pk_add_output op v t hh n r) = Fail e ->
  (e = SW_NOT_ENOUGH_DATA /\ (length data < 21)%nat \/ e = SW_TOO_MUCH_DATA /\ (21 < length data)%nat) \/
  output_error d h data e.
Proof.
  intros E s d h op data e W T H. destruct (op_fs_of _ _ _ _ _ T) as (t & Hu & Hfs & Hli).
  pose proof T as (_ & Hst & _ & Ha & _).
  destruct (parse_output_init data) as [[[[[v tl] hh] n] r]|s0] eqn:P.
  2:{ cbn [bind] in H. assert (s0 = e) as -> by congruence. left. apply short21. exact P. }
  right. apply parse_output_init_ok in P as (-> & -> & -> & -> & -> & L). cbn [bind] in H.
  assert (Q : phase_of d h <> FL_OUTPUTS_STARTED -> output_error d h data SW_BAD_STATE).
  { intro Ep. cbn. unfold phase_of in Ep. destruct (tokens_in d h) eqn:Et; cbn [negb] in Ep.
    2:{ left. intro K. apply (inputs_in_done _ _ _ W) in K. apply (no_tokens_no_inputs _ _ _ W) in Et as [Et _].
        destruct (no_outputs_no_inputs _ _ _ W Et). congruence. }
    destruct (inputs_in d h) eqn:Ei; cbn [negb] in Ep; [|left; intro K; apply (inputs_in_done _ _ _ W) in K; congruence].
    destruct (data_in d h) eqn:Ed; cbn [negb] in Ep; [|right; left; intro K; apply data_in_done in K; congruence].
    right. right. apply outputs_in_done. destruct (outputs_in d h); [reflexivity|]. cbn [negb] in Ep. congruence. }
  unfold p2pk_add_output in H. rewrite Hst in H.
  set (go := bind (tx_call op (fun s0 => full_add_box s0 _ _ _ _ _)) _) in H.
  assert (G : go = Fail e -> output_error d h data e).
  { unfold go. clear go H. intro H. unfold tx_call at 1 in H. rewrite Hu, Hfs in H. unfold full_add_box in H. cbn [fs_of fs_full full_of fl_state] in H.
    destruct (phase_of d h) eqn:Ep; try (fails H; apply Q; discriminate).
    clear Q. destruct (outputs_phase _ _ Ep) as (_ & _ & _ & Ho).
    change (fl_outputs_count (full_of E d h)) with (sh_outputs h - done_outputs d) in H.
    destruct (N.eqb_spec (sh_outputs h - done_outputs d) 0) as [E0|E0].
    { exfalso. unfold outputs_in in Ho. apply N.eqb_neq in Ho. pose proof (outputs_le _ _ _ W). unfold done_outputs in *. lia. }
    unfold box_init, TOKEN_MAX_COUNT, MAX_TX_DATA_PART_LEN in H.
    destruct (20 <? num 16 1 data) eqn:E1; [fails H; cbn; unfold TOKENS_MAX; lia|].
    destruct (32768 <? num 8 4 data) eqn:E2; [fails H; cbn; unfold PART_MAX; lia|].
    destruct (32768 <? num 17 4 data) eqn:E3; [fails H; cbn; unfold PART_MAX; lia|].
    exfalso. cbn [res_pass tx_result sw_of_res bind bs_box bs_hash bs_cb] in H. unfold tx_call in H. cbn [op_put op_union_of bind] in H.
    unfold op_fs, full_set_box_callbacks in H. cbn [tx_full fs_full full_set_union fl_state fl_union] in H.
    change (fl_state (full_of E d h)) with (phase_of d h) in H. rewrite Ep in H. cbn in H. discriminate. }
  clearbody go. destruct (sx_outputs d) as [|o0 os] eqn:Eo.
  - rewrite (op_phase_none _ _ Eo) in H. destruct (sx_inputs d) as [|i0 is] eqn:Ei; [|auto].
    assert (e = SW_BAD_STATE) as -> by congruence. left. intro K. apply (inputs_in_done _ _ _ W) in K.
    destruct (no_outputs_no_inputs _ _ _ W Ei). congruence.
  - rewrite op_phase_some in H by congruence. destruct (outputs_in d h) eqn:Eh; [|auto].
    assert (e = SW_BAD_STATE) as -> by congruence. right. right. apply outputs_in_done. exact Eh.
Qed.
