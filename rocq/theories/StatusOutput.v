(** Why the commands that fill an output, and the last one, fail. *)
From Verif Require Import Lib Gve SafeInt CodecProofs Env SpecVlq SpecTree SpecTrace SpecTx SpecAmounts SpecRequest SpecRules SpecAccept Bip32 ErgoTree
  TxTable TxBox TxInput TxFull Amounts OutputInfo InputFrame P2pkOp App BoxProofs AmountProofs SignInv SignInput SignData SignOutput
  SignBox SignTree SignRest RequestProofs RulesProofs TextProofs SpecStart SpecStatus AcceptInput AcceptOutput StatusSign.

#[local] Arguments N.eqb : simpl never.
#[local] Arguments N.ltb : simpl never.
#[local] Arguments N.leb : simpl never.
#[local] Arguments N.sub : simpl never.
#[local] Arguments blen : simpl never.
#[local] Arguments num : simpl never.
#[local] Arguments slice : simpl never.

Lemma tx_check_why : forall c t call e, op_union_of c = OU_TX t -> bind (tx_call c call) check_tx_finished = Fail e ->
  res_pass (fst (call (op_fs c t))) = false /\ e = sw_of_res (fst (call (op_fs c t))).
Proof.
  intros c t call e Hu H. destruct (tx_call c call) as [c'|e'] eqn:Hc; cbn [bind] in H.
  - exfalso. apply tx_call_ok in Hc as (t1 & r & s & _ & _ & _ & ->). destruct (check_pass (op_put c t1 s) (mk_tx (fs_full s) (snd (fs_cb s)) (tx_last_approved t1)) eq_refl) as [y Hy]. congruence.
  - assert (e' = e) as -> by congruence. apply tx_call_why; assumption.
Qed.
Lemma on_box_code : forall E s d h pre o (c : cbctx) call more, current E s d h pre o ->
  res_pass (fst (on_box (op_box_cb E) (fs_of E s d h c) call more)) = false ->
  fst (on_box (op_box_cb E) (fs_of E s d h c) call more) =
  fst (call (op_box_cb E) (gs (g_of E o) (ss_prefix s ++ out_base E d h pre) c)).
Proof.
  intros E s d h pre o c call more C Hp. assert (Hq := Hp). rewrite (on_box_pass _ _ _ _ _ _ _ _ _ C) in Hq. revert Hp. pose proof C as [C1 C2 C3 C4 C5 C6 C7 C8 C9 C10].
  unfold on_box. cbn [fs_of fs_full full_of fl_union fs_hash fs_cb]. rewrite C7, C8.
  change (mk_bs (gstate (g_of E o)) ((ss_prefix s ++ out_base E d h pre) ++ gbytes (g_of E o)) c)
    with (gs (g_of E o) (ss_prefix s ++ out_base E d h pre) c).
  destruct (call (op_box_cb E) (gs (g_of E o) (ss_prefix s ++ out_base E d h pre) c)) as [r1 x]. cbn [fst] in *. intros _.
  destruct r1; try discriminate Hq; reflexivity.
Qed.
Lemma on_box_fails : forall E s d h pre o (c : cbctx) call more r, current E s d h pre o ->
  fst (call (op_box_cb E) (gs (g_of E o) (ss_prefix s ++ out_base E d h pre) c)) = r -> res_pass r = false ->
  fst (on_box (op_box_cb E) (fs_of E s d h c) call more) = r.
Proof.
  intros E s d h pre o c call more r C Hr Hp. rewrite <- Hr. apply on_box_code; [exact C|]. rewrite (on_box_pass _ _ _ _ _ _ _ _ _ C), Hr. exact Hp.
Qed.
Lemma no_current : forall E (s : session) d h, wf E d h -> op_phase d h <> OP_OUTPUTS_STARTED -> forall o, current_output d o -> output_complete o = true.
Proof.
  intros E s d h W P o (pre & Ho). destruct (output_complete o) eqn:Oc; [reflexivity|]. destruct (cur_incomplete E s d h pre o W Ho Oc) as [X _]. contradiction.
Qed.
Lemma cur_out : forall d pre o o', sx_outputs d = pre ++ [o] -> current_output d o' -> o' = o.
Proof. intros d pre o o' Ho (pre' & K). rewrite Ho in K. apply app_inj_tail in K as [_ K]. congruence. Qed.
Lemma fail_not_ok : forall A (x : out A) e, x = Fail e -> okb x -> False.
Proof. intros A x e H [y Hy]. congruence. Qed.

(** ** Registers *)

Lemma complete_parts : forall o, output_complete o = true ->
  tree_complete o = true /\ blen (so_tokens o) = so_ntokens o /\ blen (so_regs o) = so_regs_len o.
Proof.
  intros o H. unfold output_complete in H. apply andb_true_iff in H as [H H3]. apply andb_true_iff in H as [H1 H2].
  split; [exact H1|]. split; apply N.eqb_eq; assumption.
Qed.
Lemma regs_code : forall E s d h pre o (c : cbctx) data, current E s d h pre o ->
  res_pass (fst (box_add_registers (op_box_cb E) (gs (g_of E o) (ss_prefix s ++ out_base E d h pre) c) data)) = false ->
  fst (full_add_box_registers (op_box_cb E) (fs_of E s d h c) data) =
  fst (box_add_registers (op_box_cb E) (gs (g_of E o) (ss_prefix s ++ out_base E d h pre) c) data).
Proof.
  intros E s d h pre o c data C. pose proof C as [C1 C2 C3 C4 C5 C6 C7 C8 C9 C10].
  unfold full_add_box_registers. cbn [fs_of fs_full full_of fl_state fl_union fs_hash fs_cb]. rewrite C6, C7, C8.
  change (mk_bs (gstate (g_of E o)) ((ss_prefix s ++ out_base E d h pre) ++ gbytes (g_of E o)) c)
    with (gs (g_of E o) (ss_prefix s ++ out_base E d h pre) c).
  destruct (box_add_registers (op_box_cb E) (gs (g_of E o) (ss_prefix s ++ out_base E d h pre) c) data) as [r1 x]. cbn [fst].
  intro Hp. destruct r1; try discriminate Hp; reflexivity.
Qed.
Lemma registers_why : forall E s d h op data e, wf E d h -> op_tx E s d h op -> p2pk_add_output_registers E op data = Fail e ->
  registers_error d data e.
Proof.
  intros E s d h op data e W X H. destruct (op_union_tx _ _ _ _ _ X) as (t & Eu & Hli & Efs).
  assert (Est : op_state_of op = op_phase d h) by apply X.
  pose proof (registers_iff E s d h op data W X) as Iff. assert (Nok : ~ registers_ok d data) by (intro K; apply Iff in K; exact (fail_not_ok _ _ _ H K)).
  clear Iff. unfold p2pk_add_output_registers in H. rewrite Est in H.
  assert (Dec : op_phase d h = OP_OUTPUTS_STARTED \/ op_phase d h <> OP_OUTPUTS_STARTED) by (destruct (op_phase d h); (left; reflexivity) || (right; discriminate)).
  destruct Dec as [P|P].
  2:{ assert (e = SW_BAD_STATE) as -> by (destruct (op_phase d h); try contradiction; congruence). cbn [registers_error].
      intros (o & Co & _ & _ & L). apply (no_current E s d h W P) in Co. apply complete_parts in Co as (_ & _ & Co). lia. }
  rewrite P in H. destruct (current_ok E s d h W P) as (pre & o & C). pose proof (cu_outs _ _ _ _ _ _ C) as Ho.
  destruct (tx_check_why _ _ _ _ Eu H) as [Hp He]. clear H. subst e. rewrite Efs in *.
  rewrite (regs_call_pass _ _ _ _ _ _ _ _ C) in Hp.
  assert (Code : fst (full_add_box_registers (op_box_cb E) (fs_of E s d h (op_amounts op, tx_output t)) data) =
     fst (box_add_registers (op_box_cb E) (gs (g_of E o) (ss_prefix s ++ out_base E d h pre) (op_amounts op, tx_output t)) data)).
  { apply regs_code; assumption. }
  rewrite Code. clear Code Hp. unfold box_add_registers. cbn [gs bs_box gstate bx_state bx_regs_size].
  unfold g_box_state. cbn [g_of g_done g_toks g_ntok g_regs g_regs_len]. rewrite blen_map.
  pose proof (gw_regs _ (ow_g _ _ _ (cu_wf _ _ _ _ _ _ C))) as L0. cbn [g_of g_regs g_regs_len] in L0.
  destruct (tree_complete o) eqn:Tc; cbn [negb].
  2:{ cbn. intros (o1 & K & K1 & _). rewrite (cur_out _ _ _ _ Ho K) in K1. congruence. }
  destruct (N.eqb_spec (blen (so_tokens o)) (so_ntokens o)) as [Et|Et]; cbn [negb].
  2:{ cbn. intros (o1 & K & _ & K1 & _). rewrite (cur_out _ _ _ _ Ho K) in K1. contradiction. }
  destruct (N.eqb_spec (blen (so_regs o)) (so_regs_len o)) as [Er|Er]; cbn [negb].
  { cbn. intros (o1 & K & _ & _ & K1). rewrite (cur_out _ _ _ _ Ho K) in K1. lia. }
  destruct (N.ltb_spec (so_regs_len o - blen (so_regs o)) (blen data)) as [L|L].
  { cbn. exists o. split; [exists pre; exact Ho|]. rewrite blen_app. lia. }
  exfalso. apply Nok. exists o. split; [exists pre; exact Ho|]. split; [exact Tc|]. split; [exact Et|]. rewrite blen_app. lia.
Qed.

(** ** Script *)

Lemma script_why : forall E s d h op data e, blen data <= 255 -> wf E d h -> op_tx E s d h op -> p2pk_add_output_tree_chunk E op data = Fail e ->
  script_error d data e.
Proof.
  intros E s d h op data e Hlen W X H. destruct (op_union_tx _ _ _ _ _ X) as (t & Eu & Hli & Efs).
  assert (Est : op_state_of op = op_phase d h) by apply X.
  pose proof (script_iff E s d h op data Hlen W X) as Iff. assert (Nok : ~ script_ok d data) by (intro K; apply Iff in K; exact (fail_not_ok _ _ _ H K)).
  clear Iff. unfold p2pk_add_output_tree_chunk in H. rewrite Est in H.
  assert (Dec : op_phase d h = OP_OUTPUTS_STARTED \/ op_phase d h <> OP_OUTPUTS_STARTED) by (destruct (op_phase d h); (left; reflexivity) || (right; discriminate)).
  destruct Dec as [P|P].
  2:{ assert (e = SW_BAD_STATE) as -> by (destruct (op_phase d h); try contradiction; congruence). cbn [script_error].
      intros (o & Co & L). apply (no_current E s d h W P) in Co. apply complete_parts in Co as (Co & _ & _). congruence. }
  rewrite P in H. destruct (current_ok E s d h W P) as (pre & o & C). pose proof (cu_outs _ _ _ _ _ _ C) as Ho.
  assert (Sf : tree_complete o = false -> script_so_far o = o_tree E o).
  { unfold tree_complete, script_so_far, o_tree. destruct (so_dest o) as [[y| |p]|]; intro; try discriminate; reflexivity. }
  rewrite Eu, Efs in H. unfold full_add_box_ergo_tree in H. change (fl_state (fs_full (fs_of E s d h (op_amounts op, tx_output t)))) with (phase_of d h) in H.
  rewrite (cu_phase _ _ _ _ _ _ C) in H.
  set (x0 := gs (g_of E o) (ss_prefix s ++ out_base E d h pre) (op_amounts op, tx_output t)).
  assert (Fl : forall r, fst (box_add_tree (op_box_cb E) x0 data) = r -> res_pass r = false -> e = sw_of_res r).
  { intros r Hr Hp. pose proof (on_box_fails E s d h pre o (op_amounts op, tx_output t) (fun cb x => box_add_tree cb x data) true r C Hr Hp) as Oc.
    match type of H with context [on_box ?a1 ?a2 ?a3 ?a4] => destruct (on_box a1 a2 a3 a4) as [r1 y1] end.
    cbn [fst] in Oc. subst r1.
    destruct r; try discriminate Hp; cbn in H |- *; congruence. }
  unfold box_add_tree in Fl. cbn [x0 gs bs_box gstate bx_state bx_tree_size] in Fl.
  unfold g_box_state in Fl. cbn [g_of g_done g_toks g_ntok g_regs g_regs_len] in Fl. rewrite blen_map in Fl.
  destruct (tree_complete o) eqn:Tc; cbn [negb] in Fl.
  { assert (e = SW_BAD_STATE) as ->.
    { destruct (blen (so_tokens o) =? so_ntokens o); cbn [negb] in Fl; [destruct (blen (so_regs o) =? so_regs_len o); cbn [negb] in Fl|];
        exact (Fl R_BAD_STATE eq_refl eq_refl). }
    cbn. intros (o1 & K & K1). rewrite (cur_out _ _ _ _ Ho K) in K1. congruence. }
  pose proof (gw_type _ (ow_g _ _ _ (cu_wf _ _ _ _ _ _ C)) Tc) as Ty.
  pose proof (gw_tree _ (ow_g _ _ _ (cu_wf _ _ _ _ _ _ C)) Ty) as L. cbn [g_of g_tree g_tree_len] in L.
  change (g_tree_left (g_of E o)) with (match g_type (g_of E o) with BT_TREE => so_tree_len o - blen (o_tree E o) | _ => so_tree_len o end) in Fl.
  rewrite Ty in Fl. specialize (Sf eq_refl).
  destruct (N.ltb_spec (so_tree_len o - blen (o_tree E o)) (blen data)) as [L1|L1].
  { rewrite (Fl R_TOO_MUCH_DATA eq_refl eq_refl). cbn. exists o. split; [exists pre; exact Ho|]. rewrite Sf, blen_app. lia. }
  destruct ((blen data <? so_tree_len o - blen (o_tree E o)) && (blen data <? MAX_DATA_CHUNK_LEN)) eqn:L2.
  { rewrite (Fl R_SMALL_CHUNK eq_refl eq_refl). cbn. exists o. split; [exists pre; exact Ho|]. rewrite Sf, blen_app.
    apply andb_true_iff in L2 as [L2 L3]. apply N.ltb_lt in L2, L3. unfold MAX_DATA_CHUNK_LEN in L3. unfold blen in *. lia. }
  exfalso. apply Nok. exists o. split; [exists pre; exact Ho|]. split; [exact Tc|]. rewrite Sf, blen_app. split; [lia|].
  apply andb_false_iff in L2 as [L2|L2]; apply N.ltb_ge in L2; [left; lia|right]. unfold MAX_DATA_CHUNK_LEN in L2. unfold blen in *. lia.
Qed.

(** ** Fee and change *)

Lemma add_output_code : forall c type v, am_value c < two64 -> am_fee c < two64 -> v < two64 -> am_fee c + v < two64 \/ am_value c < v -> type <> BT_TREE ->
  fst (amounts_add_output c type v) = if v <=? am_value c then R_OK else R_U64_OVERFLOW.
Proof.
  intros c type v H1 H2 H3 H4 Ht. unfold amounts_add_output. destruct type; [| |contradiction].
  all: rewrite checked_sub_u64_exact by assumption; destruct (N.leb_spec v (am_value c)) as [L|L]; try reflexivity.
  cbn [am_fee am_set_value]. rewrite checked_add_u64_exact by assumption. destruct H4 as [H4|H4]; [|lia].
  rewrite (proj2 (N.ltb_lt _ _) H4). reflexivity.
Qed.
Lemma whole_sum_gen : forall d a pre o D, amounts_rel d a -> sx_outputs d = pre ++ [o] -> tree_complete o = false ->
  (is_fee (set_dest (fun _ => D) o) = true /\ is_change (set_dest (fun _ => D) o) = false \/
   is_fee (set_dest (fun _ => D) o) = false /\ is_change (set_dest (fun _ => D) o) = true) ->
  let d' := on_outputs (upd_last (set_dest (fun _ => D))) d in
  (so_value o <= am_value a <-> fees d' + change d' <= total_in d').
Proof.
  intros d a pre o D Ha Ho Tc HD d'. unfold d'. rewrite (upd_outs _ _ _ _ Ho). set (o' := set_dest (fun _ => D) o) in *.
  destruct Ha as [A1 A2 A3 _ _]. rewrite <- (with_outs_same d) in A2. rewrite Ho, !fees_snoc, !change_snoc in A2.
  rewrite fees_snoc, change_snoc. change (total_in (with_outs d (pre ++ [o']))) with (total_in d).
  change (total_in (with_outs d (pre ++ [o]))) with (total_in d) in A2.
  assert (Hd : is_fee o = false /\ is_change o = false).
  { unfold tree_complete in Tc. unfold is_fee, is_change. destruct (so_dest o) as [[y| |p]|]; try discriminate; split; reflexivity. }
  destruct Hd as [Hd1 Hd2]. rewrite Hd1, Hd2 in A2.
  change (so_value o') with (so_value o). destruct HD as [[-> ->]|[-> ->]]; lia.
Qed.

Lemma whole_why : forall E s d h op type tree T D e,
  wf E d h -> op_tx E s d h op -> type <> BT_TREE ->
  match T with OT_SCRIPT _ | OT_SCRIPT_DONE _ => False | _ => True end ->
  (forall o, is_fee (set_dest (fun _ => D) o) = true /\ is_change (set_dest (fun _ => D) o) = false \/
   is_fee (set_dest (fun _ => D) o) = false /\ is_change (set_dest (fun _ => D) o) = true) ->
  match op_state_of op with OP_OUTPUTS_STARTED => whole_exec E type tree T op | _ => Fail SW_BAD_STATE end = Fail e ->
  whole_error d (on_outputs (upd_last (set_dest (fun _ => D))) d) e.
Proof.
  intros E s d h op type tree T D e W X Hty HT HD H. destruct (op_union_tx _ _ _ _ _ X) as (t & Eu & Hli & Efs).
  assert (Est : op_state_of op = op_phase d h) by apply X.
  pose proof X as (_ & _ & _ & Ha & _). destruct (amounts_value_bounds _ _ Ha) as [Hv Hf].
  pose proof (whole_iff E s d h op type tree T W X Hty HT) as Iff.
  assert (Nok : ~ exists o, current_output d o /\ so_dest o = None /\ so_value o <= am_value (op_amounts op)) by (intro K; apply Iff in K; exact (fail_not_ok _ _ _ H K)).
  clear Iff. rewrite Est in H.
  assert (Dec : op_phase d h = OP_OUTPUTS_STARTED \/ op_phase d h <> OP_OUTPUTS_STARTED) by (destruct (op_phase d h); (left; reflexivity) || (right; discriminate)).
  destruct Dec as [P|P].
  2:{ assert (e = SW_BAD_STATE) as -> by (destruct (op_phase d h); try contradiction; congruence). cbn [whole_error].
      intros (o & Co & L). apply (no_current E s d h W P) in Co. apply complete_parts in Co as (Co & _ & _). unfold tree_complete in Co. rewrite L in Co. discriminate. }
  rewrite P in H. destruct (current_ok E s d h W P) as (pre & o & C). pose proof (cu_outs _ _ _ _ _ _ C) as Ho. unfold whole_exec in H.
  pose proof (gw_value _ (ow_g _ _ _ (cu_wf _ _ _ _ _ _ C))) as V64. change (g_value (g_of E o)) with (so_value o) in V64.
  destruct (last_info_cur _ _ _ _ _ Hli Ho) as (i & Ei & Ri).
  assert (Hc : forall r, fst (whole_call type tree (op_box_cb E) (gs (g_of E o) (ss_prefix s ++ out_base E d h pre) (op_amounts op, tx_output t))) = r ->
     res_pass r = false -> e = sw_of_res r).
  { intros r Hr Hp. pose proof (on_box_fails E s d h pre o (op_amounts op, tx_output t) (whole_call type tree) false r C Hr Hp) as Oc.
    match type of H with bind ?z _ = _ => destruct z as [op1|e1] eqn:Hc end; cbn [bind] in H.
    - exfalso. apply tx_call_ok in Hc as (t' & r' & fs' & Eu' & Ef & Hr' & _). assert (t' = t) as -> by congruence. rewrite Efs in Ef. cbv beta in Ef.
      change (fl_state (fs_full (fs_of E s d h (op_amounts op, tx_output t)))) with (phase_of d h) in Ef. rewrite (cu_phase _ _ _ _ _ _ C) in Ef.
      apply (f_equal fst) in Ef. cbn [fst] in Ef. rewrite <- Ef in Hr'. rewrite Oc in Hr'. congruence.
    - assert (e1 = e) as -> by congruence. destruct (tx_call_why _ _ _ _ Eu Hc) as [_ He]. rewrite Efs in He. cbv beta in He.
      change (fl_state (fs_full (fs_of E s d h (op_amounts op, tx_output t)))) with (phase_of d h) in He. rewrite (cu_phase _ _ _ _ _ _ C) in He.
      rewrite Oc in He. exact He. }
  destruct (tree_complete o) eqn:Tc.
  { assert (e = SW_BAD_STATE) as ->.
    { apply (Hc R_BAD_STATE); [|reflexivity]. unfold whole_call.
      change (bx_state (bs_box (gs (g_of E o) (ss_prefix s ++ out_base E d h pre) (op_amounts op, tx_output t)))) with (g_box_state (g_of E o)).
      unfold g_box_state. change (g_done (g_of E o)) with (tree_complete o). rewrite Tc. cbn [negb].
      destruct (_ =? _); cbn [negb]; [destruct (_ =? _); cbn [negb]|]; reflexivity. }
    cbn. intros (o1 & K & K1). rewrite (cur_out _ _ _ _ Ho K) in K1. unfold tree_complete in Tc. rewrite K1 in Tc. discriminate. }
  assert (Oc : output_complete o = false) by (unfold output_complete; rewrite Tc; reflexivity).
  pose proof (whole_sum_gen d (op_amounts op) pre o D Ha Ho Tc (HD o)) as Sm. cbv zeta in Sm.
  pose proof (add_output_code (op_amounts op) type (so_value o) Hv Hf V64) as Cd.
  destruct (N.leb_spec (so_value o) (am_value (op_amounts op))) as [L|L].
  - (* the box takes the script *)
    assert (e = SW_BAD_STATE) as ->.
    { match type of H with bind ?z _ = _ => destruct z as [op1|e1] eqn:Hcl end; cbn [bind] in H.
      - match type of H with bind ?z _ = _ => destruct z as [op2|e2] eqn:Ho2 end; cbn [bind] in H.
        + exfalso. unfold check_tx_finished in H. unfold output_call in Ho2.
          destruct (op_union_of op1) as [|t1|]; try discriminate Ho2. destruct (tx_output t1) as [i1|]; [|discriminate Ho2].
          destruct (match oi_type i1 with OT_UNKNOWN => _ | _ => _ end) as [w i2]. destruct w; try discriminate Ho2.
          assert (op2 = op_set_union op1 (OU_TX (mk_tx (tx_full t1) (Some i2) (tx_last_approved t1)))) as -> by (symmetry; congruence).
          cbn in H. destruct (fl_state (tx_full t1)); discriminate.
        + assert (e2 = e) as -> by congruence.
          apply tx_call_ok in Hcl as (t' & r' & fs' & Eu' & Ef & Hr' & ->). assert (t' = t) as -> by congruence. rewrite Efs in Ef. cbv beta in Ef.
          change (fl_state (fs_full (fs_of E s d h (op_amounts op, tx_output t)))) with (phase_of d h) in Ef. rewrite (cu_phase _ _ _ _ _ _ C) in Ef.
          destruct (on_box_ok _ _ _ _ _ _ _ _ _ _ _ W C Ef Hr') as (r1 & x & Hwc & Hr1 & _ & Hcb & _).
          unfold whole_call in Hwc. change (bx_state (bs_box (gs (g_of E o) (ss_prefix s ++ out_base E d h pre) (op_amounts op, tx_output t))))
            with (g_box_state (g_of E o)) in Hwc. unfold g_box_state in Hwc. change (g_done (g_of E o)) with (tree_complete o) in Hwc.
          rewrite Tc in Hwc. cbn [negb] in Hwc. apply tree_added_cbs in Hwc as (a1 & fin & G1 & G2); [|assumption].
          cbn [bs_cb bs_with_box bs_feed gs] in G1.
          pose proof (type_cb_snd _ _ _ _ _ G1) as G3. cbn [snd] in G3. rewrite Ei in G3.
          destruct (fin_cb_ok _ _ _ _ _ i G2 G3) as [_ G4]. rewrite <- Hcb in G4.
          unfold output_call in Ho2. cbn [op_put op_union_of tx_output] in Ho2. rewrite G4 in Ho2.
          assert (Ety : oi_type (oi_finish E fin i) = oi_type i).
          { unfold oi_finish. destruct fin; [|reflexivity]. cbn. rewrite (ri_tree_set _ _ _ _ Ri), Tc. reflexivity. }
          destruct (oi_type (oi_finish E fin i)) eqn:Eo; cbv beta iota in Ho2; try congruence.
          exfalso. match type of Ho2 with context [maybe_finished_sw ?a ?b] =>
            assert (M : fst (maybe_finished_sw a b) = SW_OK); [|destruct (maybe_finished_sw a b) as [w i']] end.
          { unfold maybe_finished_sw, maybe_finished. destruct (output_info_is_finished _); [|reflexivity]. cbn. destruct T; try reflexivity; contradiction. }
          cbn [fst] in M. subst w. discriminate Ho2.
      - assert (e1 = e) as -> by congruence. exfalso. destruct (tx_call_why _ _ _ _ Eu Hcl) as [Hp _]. rewrite Efs in Hp. cbv beta in Hp.
        change (fl_state (fs_full (fs_of E s d h (op_amounts op, tx_output t)))) with (phase_of d h) in Hp. rewrite (cu_phase _ _ _ _ _ _ C) in Hp.
        rewrite (on_box_pass E s d h pre o (op_amounts op, tx_output t) (whole_call type tree) false C) in Hp.
        revert Hp. unfold whole_call.
        change (bx_state (bs_box (gs (g_of E o) (ss_prefix s ++ out_base E d h pre) (op_amounts op, tx_output t)))) with (g_box_state (g_of E o)).
        unfold g_box_state. change (g_done (g_of E o)) with (tree_complete o). rewrite Tc. cbn [negb].
        rewrite added_pass with (i := i); [|exact Ei|apply (info_notdone _ _ _ _ Ri Oc)].
        cbn [bs_cb bs_with_box bs_feed gs bs_box gstate bx_type box_set_type bx_value fst]. change (g_value (g_of E o)) with (so_value o).
        rewrite Cd; [discriminate|left|exact Hty]. destruct Ha as [A1 A2 A3 _ _]. lia. }
    cbn. intros (o1 & K & K1). apply Nok. rewrite (cur_out _ _ _ _ Ho K) in K1. exists o. split; [exists pre; exact Ho|]. split; assumption.
  - assert (e = SW_U64_OVERFLOW) as ->.
    { apply (Hc R_U64_OVERFLOW); [|reflexivity]. unfold whole_call.
      change (bx_state (bs_box (gs (g_of E o) (ss_prefix s ++ out_base E d h pre) (op_amounts op, tx_output t)))) with (g_box_state (g_of E o)).
      unfold g_box_state. change (g_done (g_of E o)) with (tree_complete o). rewrite Tc. cbn [negb].
      unfold ergo_tree_added. cbn [op_box_cb on_type]. unfold p2pk_output_type_cb.
      cbn [bs_cb bs_with_box bs_feed gs bs_box gstate bx_type box_set_type bx_value fst]. change (g_value (g_of E o)) with (so_value o).
      specialize (Cd (or_intror L) Hty). destruct (amounts_add_output (op_amounts op) type (so_value o)) as [r a]. cbn [fst] in Cd. subst r. reflexivity. }
    cbn [whole_error]. apply N.lt_nge. intro K. apply Sm in K. lia.
Qed.

Lemma fee_why : forall E s d h op data e, wf E d h -> op_tx E s d h op ->
  bind (finished data tt) (fun _ => p2pk_add_output_tree_fee E op) = Fail e ->
  e = SW_TOO_MUCH_DATA /\ data <> [] \/ whole_error d (describe_cmd d 0x17 data) e.
Proof.
  intros E s d h op data e W X H. destruct data as [|y data].
  - right. cbn [finished bind] in H.
    refine (whole_why E s d h op BT_FEE FEE_TREE OT_MINERS_FEE SD_FEE e W X _ I _ H); [discriminate|]. intro o. left. split; reflexivity.
  - left. cbn [finished bind] in H. split; [congruence|discriminate].
Qed.
Lemma path_why : forall data e, stx_read_bip32_path data = Fail e ->
  e = SW_BUFFER_ERROR /\ (length data < 1 + 4 * length (path_at 0 data) \/ length (path_at 0 data) = 0 \/ 10 < length (path_at 0 data))%nat.
Proof.
  intros data e H. split.
  - unfold stx_read_bip32_path in H. destruct (read_u8 data) as [[n l]|]; [|congruence]. destruct (read_bip32_path n l) as [[a b]|]; congruence.
  - pose proof (path_iff data) as Iff.
    assert (Nok : ~ ((1 <= length data)%nat /\ (1 + 4 * length (path_at 0 data) <= length data)%nat /\ (1 <= length (path_at 0 data) <= 10)%nat))
      by (intro K; apply Iff in K; exact (fail_not_ok _ _ _ H K)).
    lia.
Qed.
Definition exec_change (E : env) (op : p2pk) (data : bytes) : out p2pk :=
  bind (stx_read_bip32_path data) (fun '(p, _) =>
          if negb (ergo_path_validate p V_ADDRESS_GE5) then Fail SW_BIP32_BAD_PATH
          else match generate_public_key E p with
               | None => Fail SW_INTERNAL_CRYPTO_ERROR
               | Some (pk, _) => p2pk_add_output_tree_change E op p pk
               end).
Lemma derivable_gen : forall E p, derivable E p -> exists x, generate_public_key E p = Some x.
Proof. intros E p (pk & c & sk & raw & D1 & D2 & D3). unfold generate_public_key. rewrite D1, D2. eexists. reflexivity. Qed.
Lemma change_layout_why : forall E key op data e, exec_change E op data = Fail e ->
  layout_error E key 0x18 data e \/ exists pk, p2pk_add_output_tree_change E op (path_at 0 data) pk = Fail e.
Proof.
  intros E key op data e H. unfold exec_change in H. cbv [layout_error].
  destruct (stx_read_bip32_path data) as [[q rest]|e1] eqn:Hp; cbn [bind] in H.
  2:{ assert (e1 = e) as -> by congruence. left. left. apply path_why. exact Hp. }
  pose proof (read_path_spec _ _ _ Hp) as ->.
  destruct (ergo_path_validate (path_at 0 data) V_ADDRESS_GE5) eqn:Ev; cbn [negb] in H.
  2:{ left. right. left. split; [congruence|]. intro K. apply validate_address_ge5 in K. congruence. }
  destruct (generate_public_key E (path_at 0 data)) as [[pk ch]|] eqn:Eg.
  - right. exists pk. exact H.
  - left. right. right. split; [congruence|]. intro K. apply derivable_gen in K as [x K]. congruence.
Qed.
Lemma change_why : forall E s d h op pk p data e, wf E d h -> op_tx E s d h op -> p = path_at 0 data ->
  p2pk_add_output_tree_change E op p pk = Fail e -> whole_error d (describe_cmd d 0x18 data) e.
Proof.
  intros E s d h op pk p data e W X Hp H.
  refine (whole_why E s d h op BT_CHANGE (ergo_tree_generate_p2pk pk) (OT_BIP32 p) (SD_CHANGE (path_at 0 data)) e W X _ I _ H); [discriminate|].
  intro o. right. split; reflexivity.
Qed.

(** ** Tokens *)

Lemma add_output_token_why : forall c b id v r c', am_rel c b -> v < two64 -> In id (am_table c) -> amounts_add_output_token c id v = (r, c') ->
  r = R_OK \/ r = R_U64_OVERFLOW /\ (b id - Z.of_N v < - 2 ^ 63)%Z.
Proof.
  intros c b id v r c' R Hv Hin H. destruct (Z_lt_le_dec (b id - Z.of_N v) (- 2 ^ 63)) as [L|L].
  2:{ destruct (add_output_token_succ c b id v R Hv Hin L) as [c2 Hc]. left. congruence. }
  right. split; [|exact L]. unfold amounts_add_output_token in H.
  destruct (find_spec (am_table c) id (ar_table _ _ R)) as [(Hi & Hl & Hn & Hf & _)|[_ Hn]]; [|contradiction].
  set (i := token_table_find_token_index (am_table c) id) in *.
  rewrite (proj2 (N.eqb_neq i INDEX_NOT_EXIST)) in H by assumption.
  pose proof (ar_table _ _ R). pose proof (ar_len _ _ R). rewrite tok_get_nth in H by lia.
  assert (Es : nth (N.to_nat i) (am_tokens c) 0%Z = b id).
  { rewrite (ar_slot _ _ R) by lia. rewrite Hf, Hn. reflexivity. }
  rewrite checked_sub_i64_exact in H; [|rewrite Es; apply R|assumption]. rewrite Es in H.
  assert (Eok : i64_ok (b id - Z.of_N v) = false) by (unfold i64_ok; apply andb_false_iff; left; apply Z.leb_gt; lia).
  rewrite Eok in H. congruence.
Qed.
Lemma oi_add_token_why : forall o t f id v r o', (length t <= 20)%nat -> oi_rel (oi_tokens o) t f -> In id t ->
  output_info_add_token o t id v = (r, o') -> r = R_OK \/ r = R_BAD_TOKEN_VALUE /\ f id <> 0.
Proof.
  intros o t f id v r o' Ht R Hin H. destruct (N.eq_dec (f id) 0) as [Z|Z].
  { destruct (oi_add_token_succ o t f id v Ht R Hin Z) as [o2 Ho]. left. congruence. }
  right. split; [|exact Z]. unfold output_info_add_token in H.
  destruct (find_spec t id Ht) as [(Hi & Hl & Hn & Hf & _)|[_ Hn]]; [|contradiction].
  set (i := token_table_find_token_index t id) in *.
  rewrite (proj2 (N.eqb_neq i INDEX_NOT_EXIST)) in H by assumption.
  pose proof (or_len _ _ _ R) as Lo. rewrite (nth_error_nth' _ 0) in H by lia. rewrite (or_slot _ _ _ R) in H by lia. rewrite Hf, Hn in H.
  rewrite (proj2 (N.eqb_neq _ _) Z) in H. cbn [negb] in H. congruence.
Qed.

Lemma once_prefix : forall a b, once (a ++ b) -> once a.
Proof.
  intros a b H p x q Eq Hx Hin. apply (H p x (q ++ b)); [rewrite Eq, <- app_assoc; reflexivity|exact Hx|].
  rewrite map_app. apply in_or_app. left. exact Hin.
Qed.
Lemma box_tokens_loop_why : forall E distinct ids fuel (x : bs cbctx) input b f i l0 r x',
  (length input < fuel)%nat -> bytes_ok input = true ->
  am_rel (fst (bs_cb x)) b -> snd (bs_cb x) = Some i -> oi_rel (oi_tokens i) (am_table (fst (bs_cb x))) f ->
  (forall k, k < distinct -> In (nth (N.to_nat k) ids zero_id) (am_table (fst (bs_cb x)))) ->
  (forall y, amount_of y l0 = f y) ->
  box_tokens_loop (op_box_cb E) fuel (Some (distinct, ids)) x input = (r, x') ->
  r = R_OK \/ exists es1 e es2, entries 12 input = es1 ++ e :: es2 /\ Forall (fun e => length e = 12%nat /\ num 0 4 e < distinct) es1 /\
    let l := map (tok_entry (Some (distinct, ids))) in
    (r = R_TOO_MANY_TOKENS /\ blen es1 = bx_tokens_count (bs_box x) \/
     r = R_BAD_TOKEN_INDEX /\ (length e <> 12%nat \/ distinct <= num 0 4 e) \/
     r = R_BAD_TOKEN_VALUE /\ (length e <> 12%nat \/ num 0 4 e < distinct /\ ~ once (l0 ++ l (es1 ++ [e]))) \/
     r = R_U64_OVERFLOW /\ num 0 4 e < distinct /\ exists y, (b y - Z.of_N (amount_of y (l (es1 ++ [e]))) < - 2 ^ 63)%Z).
Proof.
  intros E distinct ids fuel. induction fuel as [|k IH]; intros x input b f i l0 r x' Hf Hok R Hi O T Hl0 H; [lia|].
  cbn [box_tokens_loop] in H. destruct input as [|y0 input]; [left; congruence|]. remember (y0 :: input) as inp eqn:Ei.
  assert (Li : (0 < length inp)%nat) by (subst; cbn; lia). clear Ei.
  rewrite (entries_ne 12 inp) by lia. cbv zeta.
  assert (Len : length (firstn 12 inp) = Nat.min 12 (length inp)) by apply firstn_length.
  assert (S1 : (4 <= length inp)%nat -> num 0 4 (firstn 12 inp) = num 0 4 inp).
  { intros _. unfold num, slice. cbn [skipn]. rewrite firstn_firstn. reflexivity. }
  assert (S2 : num 4 8 (firstn 12 inp) = num 4 8 inp).
  { unfold num, slice. f_equal. rewrite skipn_firstn_comm. rewrite firstn_firstn. reflexivity. }
  assert (First : forall r0, fst (fst (box_one_token (op_box_cb E) (Some (distinct, ids)) x inp)) = r0 -> r0 <> R_OK -> r = r0).
  { intros r0 H0 Hn. revert H. match goal with |- context [box_one_token ?a1 ?a2 ?a3 ?a4] =>
      assert (Q : fst (fst (box_one_token a1 a2 a3 a4)) = r0) by exact H0; destruct (box_one_token a1 a2 a3 a4) as [[r1 x1] rest] end.
    cbn [fst] in Q. subst r1. intro H. destruct r0; try contradiction; congruence. }
  assert (Err : forall P : Prop, ((bx_tokens_count (bs_box x) = 0 /\ r = R_TOO_MANY_TOKENS \/
      0 < bx_tokens_count (bs_box x) /\ (r = R_BAD_TOKEN_INDEX /\ (length (firstn 12 inp) <> 12%nat \/ distinct <= num 0 4 inp) \/
      r = R_BAD_TOKEN_VALUE /\ (length (firstn 12 inp) <> 12%nat \/ num 0 4 inp < distinct /\ f (nth (N.to_nat (num 0 4 inp)) ids zero_id) <> 0) \/
      r = R_U64_OVERFLOW /\ num 0 4 inp < distinct /\ (b (nth (N.to_nat (num 0 4 inp)) ids zero_id) - Z.of_N (num 4 8 inp) < - 2 ^ 63)%Z \/
      (12 <= length inp)%nat /\ num 0 4 inp < distinct /\
      exists x1 i1, box_tokens_loop (op_box_cb E) k (Some (distinct, ids)) x1 (skipn 12 inp) = (r, x') /\
        am_rel (fst (bs_cb x1)) (AmountProofs.upd b (nth (N.to_nat (num 0 4 inp)) ids zero_id) (- Z.of_N (num 4 8 inp))) /\
        am_table (fst (bs_cb x1)) = am_table (fst (bs_cb x)) /\
        bx_tokens_count (bs_box x1) = bx_tokens_count (bs_box x) - 1 /\ snd (bs_cb x1) = Some i1 /\
        oi_rel (oi_tokens i1) (am_table (fst (bs_cb x))) (updN f (nth (N.to_nat (num 0 4 inp)) ids zero_id) (num 4 8 inp)))) -> P) -> P).
  { intros P HP. apply HP. clear HP P. unfold box_one_token in First, H.
    destruct (N.eqb_spec (bx_tokens_count (bs_box x)) 0) as [Z|Z].
    { left. split; [exact Z|]. apply First; [reflexivity|discriminate]. }
    right. split; [lia|]. destruct (le_lt_dec 4 (length inp)) as [L4|L4].
    2:{ left. split; [|left; lia]. apply First; [|discriminate]. unfold read_u32. destruct (read_be 4 inp) as [[w l]|] eqn:Rb; [|reflexivity].
        apply read_be_spec in Rb as (b1 & D1 & L1 & _). apply (f_equal (@length N)) in D1. rewrite app_length in D1. lia. }
    unfold read_u32 in First, H. rewrite read_be_ex in First, H by lia. change (num 0 4 inp) with (num 0 4 inp) in *.
    destruct (N.leb_spec distinct (num 0 4 inp)) as [Ld|Ld].
    { left. split; [|right; exact Ld]. apply First; [reflexivity|discriminate]. }
    right. unfold box_token_value, read_u64 in First, H. destruct (le_lt_dec 12 (length inp)) as [L12|L12].
    2:{ left. split; [|left; lia]. apply First; [|discriminate]. destruct (read_be 8 (skipn 4 inp)) as [[w l]|] eqn:Rb; [|reflexivity].
        apply read_be_spec in Rb as (b1 & D1 & L1 & _). apply (f_equal (@length N)) in D1. rewrite skipn_length, app_length in D1. lia. }
    rewrite read_be_ex in First, H by (rewrite skipn_length; lia).
    replace (skipn 8 (skipn 4 inp)) with (skipn 12 inp) in First, H by (rewrite skipn_add; reflexivity).
    change (num 0 8 (skipn 4 inp)) with (num 4 8 inp) in First, H.
    assert (Bv : num 4 8 inp < two64) by (apply (num_bound 4 8); assumption).
    set (id := nth (N.to_nat (num 0 4 inp)) ids zero_id) in *. set (v := num 4 8 inp) in *. clearbody v.
    assert (Tid : In id (am_table (fst (bs_cb x)))) by (apply T; exact Ld).
    cbn [op_box_cb on_token] in First, H. unfold p2pk_output_token_cb in First, H. cbn [bs_feed bs_cb bs_box] in First, H. rewrite Hi in First, H.
    unfold cbctx in *.
    destruct (output_info_add_token i (am_table (fst (bs_cb x))) id v) as [r1 i1] eqn:Hi1.
    destruct (oi_add_token_why _ _ _ _ _ _ _ (ar_table _ _ R) O Tid Hi1) as [->|[-> Q]].
    2:{ left. split; [|right; split; assumption]. apply First; [reflexivity|discriminate]. }
    destruct (oi_add_token_ok _ _ _ _ _ _ (ar_table _ _ R) O Hi1) as (_ & _ & O' & _).
    destruct (amounts_add_output_token (fst (bs_cb x)) id v) as [r2 a] eqn:Ea.
    destruct (add_output_token_why _ _ _ _ _ _ R Bv Tid Ea) as [->|[-> Q]].
    2:{ right. left. split; [|split; assumption]. apply First; [reflexivity|discriminate]. }
    destruct (add_output_token_ok _ _ _ _ _ R Bv Ea) as (R' & _ & _ & G3 & _).
    right. right. split; [exact L12|]. split; [exact Ld|]. cbn [res_pass] in H. eexists. exists i1. split; [exact H|].
    cbn [bs_with_box bs_with_cb bs_cb bs_feed bs_box fst snd box_set_tokens_count bx_tokens_count].
    split; [exact R'|]. split; [exact G3|]. split; [reflexivity|]. split; [reflexivity|exact O']. }
  clear H First. apply Err. clear Err. set (id := nth (N.to_nat (num 0 4 inp)) ids zero_id) in *.
  assert (Te : tok_entry (Some (distinct, ids)) (firstn 12 inp) = (id, num 4 8 inp) \/ (length inp < 4)%nat).
  { destruct (le_lt_dec 4 (length inp)) as [L4|L4]; [left|right; exact L4]. unfold tok_entry. rewrite S2, (S1 L4). reflexivity. }
  intros [[Z Hr]|(Z & [[Hr Q]|[[Hr Q]|[(Hr & Q1 & Q)|(L12 & Ld & x1 & i1 & H & R1 & Et & Ec & Ei1 & O1)]]])].
  - right. exists [], (firstn 12 inp), (entries 12 (skipn 12 inp)). split; [reflexivity|]. split; [constructor|]. left. split; [exact Hr|]. rewrite Z. reflexivity.
  - right. exists [], (firstn 12 inp), (entries 12 (skipn 12 inp)). split; [reflexivity|]. split; [constructor|]. right. left. split; [exact Hr|].
    destruct Q as [Q|Q]; [left; exact Q|]. destruct (le_lt_dec 4 (length inp)) as [L4|L4]; [right; rewrite (S1 L4); exact Q|left; lia].
  - right. exists [], (firstn 12 inp), (entries 12 (skipn 12 inp)). split; [reflexivity|]. split; [constructor|]. right. right. left. split; [exact Hr|].
    destruct Q as [Q|[Q1 Q]]; [left; exact Q|]. destruct (le_lt_dec 4 (length inp)) as [L4|L4]; [right; rewrite (S1 L4); split; [exact Q1|]|left; lia].
    destruct Te as [Te|Te]; [|lia]. cbn [app map]. rewrite Te. intro K. apply once_zero in K. rewrite Hl0 in K. contradiction.
  - right. exists [], (firstn 12 inp), (entries 12 (skipn 12 inp)). split; [reflexivity|]. split; [constructor|]. 
    destruct (le_lt_dec 4 (length inp)) as [L4|L4].
    + right. right. right. split; [exact Hr|]. rewrite (S1 L4). split; [exact Q1|]. exists id. destruct Te as [Te|Te]; [|lia]. cbn [app map]. rewrite Te.
      rewrite amount_of_cons, bytes_eqb_refl, amount_of_nil, N.add_0_r. exact Q.
    + right. right. right. split; [exact Hr|]. assert (S1' : num 0 4 (firstn 12 inp) = num 0 4 inp) by (unfold num, slice; cbn [skipn]; rewrite firstn_firstn; reflexivity).
      rewrite S1'. split; [exact Q1|]. exists id. assert (Te' : tok_entry (Some (distinct, ids)) (firstn 12 inp) = (id, num 4 8 inp)) by (unfold tok_entry; rewrite S2, S1'; reflexivity).
      cbn [app map]. rewrite Te'. rewrite amount_of_cons, bytes_eqb_refl, amount_of_nil, N.add_0_r. exact Q.
  - assert (L4 : (4 <= length inp)%nat) by lia. destruct Te as [Te|Te]; [|lia].
    apply (IH x1 (skipn 12 inp) (AmountProofs.upd b id (- Z.of_N (num 4 8 inp))) (updN f id (num 4 8 inp)) i1 (l0 ++ [(id, num 4 8 inp)]) r x') in H.
    + destruct H as [H|(es1 & e & es2 & H1 & H2 & H3)]; [left; exact H|right]. exists (firstn 12 inp :: es1), e, es2. rewrite H1. split; [reflexivity|].
      split; [constructor; [split; [lia|rewrite (S1 L4); exact Ld]|exact H2]|]. cbv zeta in H3. cbn [app map]. rewrite Te.
      destruct H3 as [[H3 H4]|[H3|[[H3 H4]|(H3 & H4 & y & H5)]]].
      * left. split; [exact H3|]. rewrite blen_cons. lia.
      * right. left. exact H3.
      * right. right. left. split; [exact H3|]. destruct H4 as [H4|[H4 H5]]; [left; exact H4|right]. split; [exact H4|]. rewrite <- app_assoc in H5. exact H5.
      * right. right. right. split; [exact H3|]. split; [exact H4|]. exists y. rewrite amount_of_cons. unfold AmountProofs.upd in H5. destruct (bytes_eqb id y); lia.
    + rewrite skipn_length. lia.
    + apply bytes_ok_skipn. exact Hok.
    + exact R1.
    + exact Ei1.
    + rewrite Et. exact O1.
    + intros q Hq. rewrite Et. apply T. exact Hq.
    + intro y. rewrite amount_of_app, amount_of_cons, amount_of_nil, Hl0. unfold updN. lia.
Qed.

Lemma amount_of_prefix : forall y a b, amount_of y a <= amount_of y (a ++ b).
Proof. intros. rewrite amount_of_app. lia. Qed.
Lemma entries_not_whole : forall n data (e : bytes) es1 es2, (0 < n)%nat -> entries n data = es1 ++ e :: es2 -> length e <> n -> ~ entries_of n data.
Proof.
  intros n data e es1 es2 Hn He Hl K. apply entries_whole in K; [|exact Hn]. rewrite He in K. apply Forall_app in K as [_ K].
  inversion K; subst. contradiction.
Qed.
Lemma tokens_code : forall E s d h pre o (c : cbctx) data, current E s d h pre o ->
  res_pass (fst (full_add_box_tokens op_tget (op_box_cb E) (fs_of E s d h c) data)) = false ->
  fst (full_add_box_tokens op_tget (op_box_cb E) (fs_of E s d h c) data) =
  fst (box_add_tokens (op_box_cb E) (gs (g_of E o) (ss_prefix s ++ out_base E d h pre) c) data (Some (sh_tokens h, am_table (fst c)))).
Proof.
  intros E s d h pre o c data C. unfold full_add_box_tokens.
  change (fl_state (fs_full (fs_of E s d h c))) with (phase_of d h). rewrite (cu_phase _ _ _ _ _ _ C). intro Hp.
  rewrite (on_box_code _ _ _ _ _ _ _ _ _ C Hp). reflexivity.
Qed.
Lemma out_tokens_why : forall E s d h op data e, bytes_ok data = true -> wf E d h -> op_tx E s d h op ->
  settled d (ss_path s) (sx_outputs d) ->
  p2pk_add_output_tokens E op data = Fail e -> output_tokens_error d h data (describe_cmd d 0x19 data) e.
Proof.
  intros E s d h op data e Hb W X S H. destruct (op_union_tx _ _ _ _ _ X) as (t & Eu & Hli & Efs).
  assert (Est : op_state_of op = op_phase d h) by apply X.
  pose proof X as (_ & _ & _ & Ha & _).
  unfold p2pk_add_output_tokens in H. rewrite Est in H.
  assert (P : op_phase d h = OP_OUTPUTS_STARTED \/ (e = SW_BAD_STATE /\ op_phase d h <> OP_OUTPUTS_STARTED)).
  { destruct (op_phase d h); try (right; split; [congruence|discriminate]). left. reflexivity. }
  destruct P as [P|[-> P]].
  2:{ cbv [output_tokens_error]. intros (o & Ho & H1 & H2).
      pose proof (no_current E s d h W P o Ho) as Oc. apply complete_parts in Oc as (_ & Oc & _). lia. }
  rewrite P in H. destruct (current_ok E s d h W P) as (pre & o & C). pose proof (cu_outs _ _ _ _ _ _ C) as Ho.
  assert (Hc : current_output d o) by (exists pre; exact Ho).
  set (table := (sh_tokens h, am_table (op_amounts op))).
  destruct (tx_check_why op t _ e Eu H) as [Hf He]. clear H. rewrite Efs in Hf, He.
  pose proof (tokens_code _ _ _ _ _ _ (op_amounts op, tx_output t) data C Hf) as Q. rewrite Q in Hf, He. clear Q. cbn [fst] in Hf, He. fold table in Hf, He.
  unfold box_add_tokens in Hf, He. change (bx_state (bs_box (gs (g_of E o) (ss_prefix s ++ out_base E d h pre) (op_amounts op, tx_output t))))
      with (g_box_state (g_of E o)) in Hf, He.
  unfold g_box_state in Hf, He. cbn [g_of g_done g_toks g_ntok] in Hf, He. rewrite blen_map in Hf, He.
  destruct (tree_complete o) eqn:Tc; cbn [negb] in Hf, He.
  2:{ cbn [box_res_error fst sw_of_res] in He. subst e. cbv [output_tokens_error]. intros (o1 & K & K1 & _). rewrite (cur_out _ _ _ _ Ho K) in K1. congruence. }
  pose proof (gw_toks _ (ow_g _ _ _ (cu_wf _ _ _ _ _ _ C))) as L. cbn [g_of g_toks g_ntok] in L. rewrite blen_map in L.
  destruct (N.eqb_spec (blen (so_tokens o)) (so_ntokens o)) as [Et|Et]; cbn [negb] in Hf, He.
  { assert (e = SW_BAD_STATE) as -> by (rewrite He; repeat case_if; reflexivity). cbv [output_tokens_error].
    intros (o1 & K & _ & K1). rewrite (cur_out _ _ _ _ Ho K) in K1. lia. }
  fold (g_of E o) in Hf, He.
  assert (Oc : output_complete o = false).
  { unfold output_complete. replace (blen (so_tokens o) =? so_ntokens o) with false by (symmetry; apply N.eqb_neq; lia).
    rewrite andb_false_r. reflexivity. }
  destruct (last_info_cur _ _ _ _ _ Hli Ho) as (i & Ei & Ri).
  pose proof (cu_tok _ _ _ _ _ _ C) as Tk. unfold tokens_in in Tk. apply N.eqb_eq in Tk.
  assert (Tab : exists ext, am_table (op_amounts op) = sx_tokens d ++ ext).
  { rewrite (ra_table _ _ Ha). unfold table_of. apply table_prefix. }
  destruct Tab as [ext Tab].
  unfold op_tget in Hf, He.
  destruct (box_tokens_loop (op_box_cb E) (Datatypes.S (length data)) (Some table)
    (gs (g_of E o) (ss_prefix s ++ out_base E d h pre) (op_amounts op, tx_output t)) data) as [r x'] eqn:Hx.
  assert (Hr : r <> R_OK /\ e = sw_of_res r).
  { match type of He with context [box_tokens_loop ?a1 ?a2 ?a3 ?a4 ?a5] =>
      assert (Hx2 : box_tokens_loop a1 a2 a3 a4 a5 = (r, x')) by exact Hx; rewrite Hx2 in Hf, He end.
    destruct r; try (split; [discriminate|exact He]). exfalso.
    destruct (box_tokens_loop_ok (op_box_cb E) (Some table) _ _ _ _ _ Hb Hx eq_refl) as (_ & _ & _ & Hcb & _).
    cbn [gs bs_cb bs_box gstate bx_type] in Hcb.
    assert (Hx' : exists i1, snd (bs_cb x') = Some i1 /\ notdone i1).
    { destruct (token_cbs_ok _ _ _ _ _ _ (fun id => amount_of id (tokens_of d o)) i Hcb (ra_tokens _ _ Ha) Ei) as (_ & _ & _ & _ & (i1 & Q5 & Q6 & _) & _).
      - cbn [fst]. rewrite (ra_table _ _ Ha). exact (ri_tokens _ _ _ _ Ri).
      - rewrite Forall_map, Forall_forall. intros e0 Hin. unfold tok_entry, table. cbn [snd].
        pose proof (entries_bytes_ok 12 data Hb) as Fb. rewrite Forall_forall in Fb. specialize (Fb e0 Hin).
        apply (num_bound 4 8) in Fb. exact Fb.
      - exists i1. split; [exact Q5|]. intro k. rewrite Q6. cbn [oi_type oi_set_tokens]. apply (info_notdone _ _ _ _ Ri Oc). }
    destruct Hx' as (i1 & Hi1 & Hn1). revert Hf.
    unfold box_tokens_done. destruct (_ =? 0); [|discriminate]. destruct (_ =? 0); [|discriminate].
    match goal with |- ?q = false -> _ => assert (Q : q = true) by (apply fin_pass with i1; assumption); rewrite Q; discriminate end. }
  destruct Hr as [Hr He']. clear He Hf. subst e.
  set (l := map (fun e => (num 0 4 e, num 4 8 e)) (entries 12 data)).
  assert (Ed : describe_cmd d 0x19 data = with_outs d (pre ++ [add_so_tokens l o])) by (apply (upd_outs d _ pre o Ho)).
  rewrite Ed. set (o' := add_so_tokens l o).
  assert (Hc' : current_output (with_outs d (pre ++ [o'])) o') by (exists pre; reflexivity).
  assert (Bl : blen l = blen (entries 12 data)) by (unfold l; apply blen_map).
  destruct (box_tokens_loop_why E (sh_tokens h) (am_table (op_amounts op)) (Datatypes.S (length data))
    (gs (g_of E o) (ss_prefix s ++ out_base E d h pre) (op_amounts op, tx_output t)) data
    (balance d) (fun id => amount_of id (tokens_of d o)) i (tokens_of d o) r x') as [K|(es1 & e & es2 & He & F & K)].
  - lia.
  - exact Hb.
  - exact (ra_tokens _ _ Ha).
  - exact Ei.
  - cbn [gs bs_cb fst]. rewrite (ra_table _ _ Ha). exact (ri_tokens _ _ _ _ Ri).
  - intros k Hk. cbn [gs bs_cb fst]. apply nth_In. rewrite Tab, app_length. unfold blen in Tk. lia.
  - reflexivity.
  - exact Hx.
  - contradiction.
  - cbv zeta in K.
    assert (Hent : num 0 4 e < sh_tokens h -> exists rest, tokens_of (with_outs d (pre ++ [o'])) o' =
       tokens_of d o ++ map (tok_entry (Some (sh_tokens h, am_table (op_amounts op)))) (es1 ++ [e]) ++ rest).
    { intro Hi. exists (map (fun t => (nth (N.to_nat (fst t)) (sx_tokens d) [], snd t)) (map (fun e => (num 0 4 e, num 4 8 e)) es2)).
      change (tokens_of (with_outs d (pre ++ [o'])) o') with (tokens_of d o'). unfold tokens_of, o'. cbn [so_tokens add_so_tokens].
      rewrite map_app. f_equal. unfold l. rewrite He. replace (es1 ++ e :: es2) with ((es1 ++ [e]) ++ es2) by (rewrite <- app_assoc; reflexivity).
      rewrite !(map_app _ (es1 ++ [e]) es2), (map_app _ (map _ (es1 ++ [e]))). f_equal. rewrite map_map. apply map_ext_in. intros a Hin.
      assert (Ha' : num 0 4 a < sh_tokens h).
      { apply in_app_or in Hin as [Hin|[<-|[]]]; [|exact Hi]. rewrite Forall_forall in F. apply F. exact Hin. }
      cbn [fst snd]. unfold tok_entry. f_equal. rewrite Tab. unfold blen in Tk. rewrite app_nth1 by lia. apply nth_indep. lia. }
    destruct K as [[-> K]|[[-> K]|[[-> K]|(-> & Hi & y & K)]]]; cbn [sw_of_res]; cbv [output_tokens_error].
    + exists o'. split; [exact Hc'|]. unfold o'. cbn [so_tokens so_ntokens add_so_tokens]. rewrite blen_app, Bl, He, blen_app, blen_cons.
      cbn [gs bs_box gstate bx_tokens_count g_of g_toks g_ntok] in K. rewrite blen_map in K. lia.
    + destruct K as [K|K]; [left; eapply entries_not_whole; [lia|exact He|exact K]|right]. rewrite He. intro Q. apply Forall_app in Q as [_ Q].
      inversion Q; subst. lia.
    + destruct K as [K|[Hi K]]; [left; eapply entries_not_whole; [lia|exact He|exact K]|right]. exists o'. split; [exact Hc'|]. intro Q. apply once_spec in Q.
      destruct (Hent Hi) as [rest Hr']. rewrite Hr' in Q. rewrite app_assoc in Q. apply once_prefix in Q. contradiction.
    + destruct (Hent Hi) as [rest Hr']. exists y. rewrite <- (with_outs_same d), Ho in K. unfold balance in *. rewrite output_tokens_snoc in *.
      change (tokens_of (with_outs d (pre ++ [o'])) o') with (tokens_of d o') in Hr'. rewrite Hr'.
      rewrite !amount_of_app in *. change (input_tokens (with_outs d ?q)) with (input_tokens d) in *. lia.
Qed.
