(** Preservation of the signing invariant: context extensions and data inputs. *)
From Verif Require Import Lib Gve CodecProofs Env SpecVlq SpecTree SpecTx SpecAmounts Bip32 ErgoTree TxTable TxBox TxInput
  TxFull Amounts OutputInfo InputFrame P2pkOp App BoxProofs AmountProofs SignInv SignInput.

#[local] Arguments N.eqb : simpl never.
#[local] Arguments N.ltb : simpl never.
#[local] Arguments N.leb : simpl never.
#[local] Arguments N.sub : simpl never.
#[local] Arguments blen : simpl never.
#[local] Arguments num : simpl never.
#[local] Arguments slice : simpl never.

Lemma amounts_rel_same : forall d d' a, amounts_rel d a -> sx_tokens d' = sx_tokens d -> sx_outputs d' = sx_outputs d ->
  input_tokens d' = input_tokens d -> total_in d' = total_in d -> amounts_rel d' a.
Proof.
  intros d d' a [A1 A2 A3 A4 A5] E1 E2 E3 E4.
  assert (Ef : fees d' = fees d) by (unfold fees; rewrite E2; reflexivity).
  assert (Ec : change d' = change d) by (unfold change; rewrite E2; reflexivity).
  constructor.
  - congruence.
  - congruence.
  - congruence.
  - rewrite A4. unfold table_of. rewrite E1, E3. reflexivity.
  - eapply am_rel_ext; [|exact A5]. intro x. unfold balance, output_tokens, tokens_of. rewrite E1, E2, E3. reflexivity.
Qed.

Lemma inputs_phase : forall d h, phase_of d h = FL_INPUTS_STARTED -> tokens_in d h = true /\ inputs_in d h = false.
Proof.
  intros d h H. unfold phase_of in H. destruct (tokens_in d h); [|discriminate]. destruct (inputs_in d h); [|auto].
  cbn in H. destruct (data_in d h); [|discriminate]. cbn in H. destruct (outputs_in d h); discriminate.
Qed.
Lemma data_phase : forall d h, phase_of d h = FL_DATA_INPUTS_STARTED ->
  tokens_in d h = true /\ inputs_in d h = true /\ data_in d h = false.
Proof.
  intros d h H. unfold phase_of in H. destruct (tokens_in d h); [|discriminate]. destruct (inputs_in d h); [|discriminate].
  cbn in H. destruct (data_in d h); [|auto]. cbn in H. destruct (outputs_in d h); discriminate.
Qed.
Lemma outputs_phase : forall d h, phase_of d h = FL_OUTPUTS_STARTED ->
  tokens_in d h = true /\ inputs_in d h = true /\ data_in d h = true /\ outputs_in d h = false.
Proof.
  intros d h H. unfold phase_of in H. destruct (tokens_in d h); [|discriminate]. destruct (inputs_in d h); [|discriminate].
  cbn in H. destruct (data_in d h); [|discriminate]. cbn in H. destruct (outputs_in d h); [discriminate|auto].
Qed.
Lemma no_data : forall E d h, wf E d h -> inputs_in d h = false -> sx_data d = [].
Proof.
  intros E d h W H. destruct (sx_data d) eqn:X; [reflexivity|]. exfalso. assert (sx_data d <> []) as Y by congruence.
  apply (w_data_inputs _ _ _ W) in Y. congruence.
Qed.

Lemma add_ext_ok : forall E s d h op data op',
  wf E d h -> op_tx E s d h op -> p2pk_add_input_context_extension op data = Ok op' ->
  wf E (describe_cmd d 0x13 data) h /\ op_tx E s (describe_cmd d 0x13 data) h op'.
Proof.
  intros E s d h op data op' W T H. unfold p2pk_add_input_context_extension in H.
  pose proof T as (Hfix & Hst & Hh & Ha & oi & Hi & Hu).
  destruct (op_state_of op) eqn:Es; try discriminate.
  symmetry in Hst. apply op_phase_inputs in Hst as [Hne Ho].
  destruct (snoc_cases _ (sx_inputs d)) as [Ei|(pre & i & Ei)]; [contradiction|].
  apply tx_call_ok in H as (t & r & s1 & Ht & Hc & Hr & ->).
  destruct (op_tx_fs _ _ _ _ _ _ T Ht) as [Hfs Hinfo]. rewrite Hfs in Hc. clear Hfs.
  assert (Eoi : tx_output t = None) by (unfold last_info in Hinfo; rewrite Ho in Hinfo; exact Hinfo).
  rewrite Eoi in Hc.
  unfold full_add_input_context_extension, fs_of in Hc. cbn [fs_full full_of fl_state] in Hc.
  destruct (phase_of d h) eqn:Eph; try (bad Hc).
  destruct (inputs_phase _ _ Eph) as [Htok Hin]. assert (Hd := no_data _ _ _ W Hin).
  unfold on_input in Hc. cbn [fs_full full_of fl_union fs_hash fs_cb] in Hc. rewrite (union_inputs E d h pre i Ho Ei) in Hc.
  pose proof (w_in_wf _ _ _ W) as Fw. rewrite Ei in Fw. apply Forall_snoc in Fw as [Fp Wi].
  pose proof (w_in_last _ _ _ W _ _ Ei) as Cp.
  assert (Hlt : blen pre < sh_inputs h).
  { pose proof (w_in_le _ _ _ W) as X. rewrite Ei, blen_app in X. change (blen [i]) with 1 in X. lia. }
  unfold input_add_context_extension in Hc. cbn [is_in is_hash is_cb] in Hc. unfold in_of in Hc.
  cbn [in_state in_box_id in_frames_count in_frames_processed in_ext_size] in Hc.
  destruct (frames_in i) eqn:Hfi; cbn [negb] in Hc; [|bad Hc].
  destruct (N.eqb_spec (blen (si_ext i)) (si_ext_len i)) as [Ee|Ee]; [bad Hc|].
  destruct (si_ext_len i - blen (si_ext i) <? blen data) eqn:El; [bad Hc|].
  assert (Hic : input_complete i = false).
  { unfold input_complete. apply andb_false_iff. right. apply N.eqb_neq. assumption. }
  assert (Dn := done_snoc d pre i Ei Cp). rewrite Hic, N.add_0_r in Dn.
  set (i' := mk_si (si_id i) (si_value i) (si_count i) (si_frames i) (si_ext_len i) (si_ext i ++ data)).
  set (d' := on_inputs (fun _ => pre ++ [i']) d).
  assert (Ed : describe_cmd d 0x13 data = d').
  { unfold d', on_inputs. cbn [describe_cmd]. unfold on_inputs. rewrite Ei, upd_last_snoc. reflexivity. }
  pose proof (iw_ext _ Wi) as Hext.
  assert (Wi' : in_wf i').
  { destruct Wi. constructor; cbn; try assumption.
    - rewrite blen_app. lia.
    - change (frames_in i') with (frames_in i). congruence. }
  assert (Hfi' : frames_in i' = true) by exact Hfi.
  assert (W' : wf E d' h).
  { apply wf_more_inputs; try assumption.
    - apply Forall_snoc. auto.
    - intros p x Ex. apply snoc_inj in Ex as [<- _]. assumption.
    - rewrite blen_app. change (blen [i']) with 1. lia. }
  assert (Ho' : sx_outputs d' = []) by exact Ho.
  assert (Hne0 : si_ext_len i <> 0) by lia.
  assert (Ebytes : concat (map in_bytes (sx_inputs d')) = concat (map in_bytes (sx_inputs d)) ++ data).
  { cbn [d' on_inputs sx_inputs]. rewrite Ei, !map_app, !concat_app. cbn [map concat]. unfold in_bytes at 2 4.
    rewrite Hfi', Hfi. cbn [i' si_ext_len si_ext si_id]. rewrite (proj2 (N.eqb_neq _ _) Hne0), !app_nil_r, <- !app_assoc. reflexivity. }
  rewrite Ed. split; [assumption|].
  assert (Es1 : s1 = fs_of E s d' h (op_amounts op, None)).
  { unfold in_set_state, tx_bytes in Hc. rewrite Hin, app_nil_r in Hc.
    cbn [in_state in_box_id in_frames_count in_frames_processed in_ext_size is_in is_hash is_cb full_set_union fl_state fl_inputs_count
         fl_data_inputs_count fl_outputs_count fl_distinct fl_union full_of] in Hc.
    assert (Efo : forall u, full_set_union (full_of E d h) u =
        mk_full FL_INPUTS_STARTED (sh_inputs h - blen pre) (sh_data h) (sh_outputs h) (sh_tokens h) u).
    { intro u. unfold full_of, full_set_union, done_outputs. cbn [fl_state fl_inputs_count
         fl_data_inputs_count fl_outputs_count fl_distinct]. rewrite Eph, Dn, Hd, blen_nil, Ho, count_nil, !N.sub_0_r. reflexivity. }
    assert (Erem : si_ext_len i - blen (si_ext i) - blen data = si_ext_len i' - blen (si_ext i')).
    { cbn [i' si_ext_len si_ext]. rewrite blen_app. lia. }
    rewrite Erem in Hc. 
    destruct (N.eqb_spec (si_ext_len i' - blen (si_ext i')) 0) as [Ez|Ez].
    - assert (Efull : blen (si_ext i') = si_ext_len i').
      { pose proof (iw_ext _ Wi'). lia. }
      assert (Eio : in_of i' = mk_input IN_FINISHED (si_id i) (si_count i) (blen (si_frames i)) (si_ext_len i' - blen (si_ext i'))).
      { unfold in_of. rewrite Hfi', Efull, N.eqb_refl. reflexivity. }
      cbn [is_in is_hash is_cb] in Hc. rewrite <- Eio, Efo in Hc.
      rewrite (input_finished_ok E s d' h (op_amounts op, None) pre i') in Hc; try assumption.
      + injection Hc as _ <-. reflexivity.
      + reflexivity.
      + unfold input_complete. fold (frames_in i'). rewrite Hfi', Efull, N.eqb_refl. reflexivity.
      + cbn [fst]. rewrite (ra_table _ _ Ha). unfold table_of, input_tokens. cbn [d' on_inputs sx_inputs sx_tokens].
        rewrite Ei, !map_app. reflexivity.
      + rewrite Ebytes, <- !app_assoc. reflexivity.
    - assert (Eio : in_of i' = mk_input IN_EXTENSION_STARTED (si_id i) (si_count i) (blen (si_frames i)) (si_ext_len i' - blen (si_ext i'))).
      { unfold in_of. rewrite Hfi'. cbn [negb].
        replace (blen (si_ext i') =? si_ext_len i') with false by (symmetry; apply N.eqb_neq; pose proof (iw_ext _ Wi'); lia). reflexivity. }
      cbn [is_in is_hash is_cb] in Hc. rewrite <- Eio, Efo in Hc. injection Hc as <- <-.
      assert (Hic' : input_complete i' = false).
      { unfold input_complete. apply andb_false_iff. right. apply N.eqb_neq. pose proof (iw_ext _ Wi'). lia. }
      assert (Dn' := done_snoc d' pre i' eq_refl Cp). rewrite Hic', N.add_0_r in Dn'.
      assert (Hin' : inputs_in d' h = false) by (unfold inputs_in; apply N.eqb_neq; lia).
      unfold fs_of. f_equal.
      + unfold full_of, phase_of. rewrite Hin', Dn'. change (tokens_in d' h) with (tokens_in d h). rewrite Htok.
        rewrite (union_inputs E d' h pre i' Ho' eq_refl). cbn [negb d' on_inputs sx_data]. rewrite Hd, blen_nil, N.sub_0_r.
        unfold done_outputs. rewrite Ho', count_nil, N.sub_0_r. reflexivity.
      + unfold tx_bytes. rewrite Hin', app_nil_r, Ebytes, <- !app_assoc. reflexivity. }
  rewrite Es1. apply (op_tx_put E s d h op d').
  - assumption.
  - unfold op_phase. rewrite Ho', Ho. cbn [d' on_inputs sx_inputs]. rewrite Ei. destruct pre; reflexivity.
  - cbn [fst]. apply (amounts_rel_same d); try assumption; try reflexivity.
    + unfold input_tokens. cbn [d' on_inputs sx_inputs]. rewrite Ei, !map_app. reflexivity.
    + rewrite (total_in_snoc d' pre i') by reflexivity. rewrite (total_in_snoc d pre i Ei). reflexivity.
  - unfold last_info. rewrite Ho'. reflexivity.
  - reflexivity.
  - exact Ht.
Qed.

(** ** Data inputs *)

Lemma data_inputs_loop_ok : forall fuel (s : fs cbctx) inputs s',
  data_inputs_loop fuel s inputs = (R_OK, s') ->
  Forall (fun e => length e = 32%nat) (entries 32 inputs) /\ blen (entries 32 inputs) <= fl_data_inputs_count (fs_full s) /\
  s' = mk_fs (full_set_data (fs_full s) (fl_data_inputs_count (fs_full s) - blen (entries 32 inputs)))
             (fs_hash s ++ concat (entries 32 inputs)) (fs_cb s).
Proof.
  induction fuel as [|k IH]; intros s inputs s' H; cbn [data_inputs_loop] in H; [discriminate|].
  destruct inputs as [|x inputs].
  - injection H as <-. rewrite entries_nil, blen_nil, N.sub_0_r. cbn [concat]. rewrite app_nil_r.
    split; [constructor|]. split; [lia|]. destruct s as [[] ? ?]. reflexivity.
  - remember (x :: inputs) as inp eqn:Ei. clear Ei.
    destruct (N.eqb_spec (fl_data_inputs_count (fs_full s)) 0) as [E0|E0]; [discriminate|].
    destruct (read_bytes ERGO_ID_LEN inp) as [[id rest]|] eqn:E1; [|discriminate].
    apply read_bytes_spec in E1 as [-> L1]. unfold ERGO_ID_LEN in L1.
    apply IH in H. cbn [fs_with_full fs_feed fs_full fs_hash fs_cb full_set_data fl_data_inputs_count] in H.
    destruct H as (H1 & H2 & ->). rewrite entries_app by (assumption || lia). rewrite blen_cons. cbn [concat].
    split; [constructor; assumption|]. split; [lia|]. unfold fs_with_full, fs_feed, full_set_data.
    cbn [fs_full fs_hash fs_cb fl_state fl_inputs_count fl_data_inputs_count fl_outputs_count fl_distinct fl_union].
    rewrite <- !app_assoc. f_equal. f_equal. lia.
Qed.
Lemma data_inputs_loop_more : forall fuel (s : fs cbctx) inputs s',
  data_inputs_loop fuel s inputs <> (R_MORE_DATA, s').
Proof.
  induction fuel as [|k IH]; intros s inputs s' H; cbn [data_inputs_loop] in H; [discriminate|].
  destruct inputs as [|x inputs]; [discriminate|].
  destruct (N.eqb_spec (fl_data_inputs_count (fs_full s)) 0) as [E0|E0]; [discriminate|].
  destruct (read_bytes ERGO_ID_LEN (x :: inputs)) as [[id rest]|] eqn:E1; [|discriminate].
  eapply IH. eassumption.
Qed.

Lemma add_data_ok : forall E s d h op data op',
  wf E d h -> op_tx E s d h op -> p2pk_add_data_inputs op data = Ok op' ->
  wf E (describe_cmd d 0x14 data) h /\ op_tx E s (describe_cmd d 0x14 data) h op'.
Proof.
  intros E s d h op data op' W T H. unfold p2pk_add_data_inputs in H.
  pose proof T as (Hfix & Hst & Hh & Ha & oi & Hi & Hu).
  destruct (op_state_of op) eqn:Es; try discriminate.
  symmetry in Hst. apply op_phase_inputs in Hst as [Hne Ho].
  destruct (snoc_cases _ (sx_inputs d)) as [Ei|(pre & i & Ei)]; [contradiction|].
  apply tx_call_ok in H as (t & r & s1 & Ht & Hc & Hr & ->).
  destruct (op_tx_fs _ _ _ _ _ _ T Ht) as [Hfs Hinfo]. rewrite Hfs in Hc. clear Hfs.
  assert (Eoi : tx_output t = None) by (unfold last_info in Hinfo; rewrite Ho in Hinfo; exact Hinfo).
  rewrite Eoi in Hc. unfold full_add_data_inputs in Hc.
  destruct (fl_state (fs_full (fs_of E s d h (op_amounts op, None)))) eqn:Eph; try (bad Hc).
  change (phase_of d h = FL_DATA_INPUTS_STARTED) in Eph.
  destruct (data_phase _ _ Eph) as (Htok & Hin & Hdi).
  destruct (data_inputs_loop (S (length data)) (fs_of E s d h (op_amounts op, None)) data) as [r1 s2] eqn:El.
  destruct (res_pass r1) eqn:Er1.
  2:{ destruct r1; try discriminate; bad Hc. }
  assert (r1 = R_OK) as ->.
  { destruct r1; try discriminate; [reflexivity|]. exfalso. eapply data_inputs_loop_more. eassumption. }
  apply data_inputs_loop_ok in El as (L1 & L2 & ->). cbn [fs_of fs_full fs_hash fs_cb full_of fl_data_inputs_count] in Hc, L2.
  set (d' := mk_stx (sx_head d) (sx_tokens d) (sx_inputs d) (sx_data d ++ entries 32 data) (sx_outputs d)).
  change (describe_cmd d 0x14 data) with d'.
  pose proof (w_data_le _ _ _ W) as Wd.
  assert (Hin' : inputs_in d' h = true) by exact Hin.
  assert (Htok' : tokens_in d' h = true) by exact Htok.
  assert (Ho' : sx_outputs d' = []) by exact Ho.
  assert (W' : wf E d' h).
  { destruct W. constructor; cbn; try assumption; try congruence.
    - rewrite blen_app. lia.
    - apply Forall_app. auto. }
  split; [assumption|].
  assert (Eu : union_of E d' h = FU_INPUT (in_of i) true) by (apply (union_inputs E d' h pre i); assumption).
  assert (Es1 : s1 = fs_of E s d' h (op_amounts op, None)).
  { unfold tx_bytes in Hc. rewrite Hin, Hdi, app_nil_r in Hc.
    unfold full_set_data, full_of in Hc.
    cbn [fl_state fl_inputs_count fl_data_inputs_count fl_outputs_count fl_distinct fl_union] in Hc.
    rewrite Eph in Hc.
    rewrite (union_inputs E d h pre i Ho Ei), <- Eu in Hc.
    assert (Erem : sh_data h - blen (sx_data d) - blen (entries 32 data) = sh_data h - blen (sx_data d')).
    { cbn [d' sx_data]. rewrite blen_app. lia. }
    rewrite Erem in Hc.
    assert (Din : done_inputs d = sh_inputs h) by (apply N.eqb_eq; exact Hin).
    rewrite Din, N.sub_diag in Hc. unfold done_outputs in Hc. rewrite Ho, count_nil, N.sub_0_r in Hc.
    pose proof (w_data_le _ _ _ W') as Wd'.
    destruct (N.eqb_spec (sh_data h - blen (sx_data d')) 0) as [Ez|Ez].
    - rewrite Ez in Hc. rewrite (data_finished_ok E s d' h) in Hc; try assumption.
      + injection Hc as _ <-. reflexivity.
      + unfold data_in. apply N.eqb_eq. lia.
      + exact (ra_table _ _ Ha).
      + cbn [d' sx_inputs sx_data]. rewrite concat_app, <- !app_assoc. reflexivity.
    - assert (Hdi' : data_in d' h = false) by (unfold data_in; apply N.eqb_neq; lia).
      injection Hc as <- <-. unfold fs_of. f_equal.
      + unfold full_of, phase_of. rewrite Htok', Hin', Hdi', Eu. cbn [negb].
        change (done_inputs d') with (done_inputs d). rewrite Din, N.sub_diag. unfold done_outputs. rewrite Ho', count_nil, N.sub_0_r. reflexivity.
      + unfold tx_bytes. rewrite Hin', Hdi'. cbn [d' sx_inputs sx_data]. rewrite concat_app, app_nil_r, <- !app_assoc. reflexivity. }
  rewrite Es1. apply (op_tx_put E s d h op d').
  - assumption.
  - reflexivity.
  - cbn [fst]. apply (amounts_rel_same d); try assumption; reflexivity.
  - unfold last_info. rewrite Ho'. reflexivity.
  - reflexivity.
  - exact Ht.
Qed.
