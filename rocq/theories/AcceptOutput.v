(** Exactly when the commands that fill an output succeed. *)
From Verif Require Import Lib Gve CodecProofs Env SpecVlq SpecTree SpecTrace SpecTx SpecAmounts SpecRequest SpecRules SpecAccept Bip32 ErgoTree
  TxTable TxBox TxInput TxFull Amounts OutputInfo InputFrame P2pkOp App BoxProofs AmountProofs SignInv SignInput SignData SignOutput
  SignBox SignTree SignRest RequestProofs RulesProofs TextProofs AcceptInput.

#[local] Arguments N.eqb : simpl never.
#[local] Arguments N.ltb : simpl never.
#[local] Arguments N.leb : simpl never.
#[local] Arguments N.sub : simpl never.
#[local] Arguments blen : simpl never.
#[local] Arguments num : simpl never.
#[local] Arguments slice : simpl never.

Lemma pass_of : forall A (z : res * A) r x, z = (r, x) -> res_pass (fst z) = true -> res_pass r = true.
Proof. intros A z r x -> H. exact H. Qed.

(** ** The current output *)

Lemma cur_incomplete : forall E s d h pre o, wf E d h -> sx_outputs d = pre ++ [o] -> output_complete o = false ->
  op_phase d h = OP_OUTPUTS_STARTED /\ current E s d h pre o.
Proof.
  intros E s d h pre o W Ho Oc.
  assert (P : op_phase d h = OP_OUTPUTS_STARTED).
  { pose proof (w_out_le _ _ _ W _ _ Ho) as L. unfold op_phase, outputs_in, done_outputs. rewrite Ho, count_app, count_one, Oc.
    destruct (pre ++ [o]) eqn:X; [destruct pre; discriminate|].
    replace (count_complete output_complete pre + 0 =? sh_outputs h) with false by (symmetry; apply N.eqb_neq; lia). reflexivity. }
  split; [exact P|]. destruct (current_ok E s d h W P) as (pre' & o' & C). pose proof (cu_outs _ _ _ _ _ _ C) as Ho'.
  rewrite Ho in Ho'. apply app_inj_tail in Ho' as [-> ->]. exact C.
Qed.

Lemma check_pass : forall op t, op_union_of op = OU_TX t -> okb (check_tx_finished op).
Proof. intros op t H. unfold check_tx_finished. rewrite H. destruct (fl_state (tx_full t)); apply okb_ok. Qed.
Lemma okb_tx_check : forall c t call, op_union_of c = OU_TX t ->
  (okb (bind (tx_call c call) check_tx_finished) <-> res_pass (fst (call (op_fs c t))) = true).
Proof.
  intros c t call Hu. rewrite okb_bind. split.
  - intros (c' & Hc & _). apply (okb_tx_call c t call Hu). exists c'. exact Hc.
  - intro H. apply (okb_tx_call c t call Hu) in H as [c' Hc]. exists c'. split; [exact Hc|].
    apply tx_call_ok in Hc as (t1 & r & s & _ & _ & _ & ->). eapply check_pass. reflexivity.
Qed.
Lemma on_box_pass : forall E s d h pre o (c : cbctx) call more, current E s d h pre o ->
  res_pass (fst (on_box (op_box_cb E) (fs_of E s d h c) call more)) =
  res_pass (fst (call (op_box_cb E) (gs (g_of E o) (ss_prefix s ++ out_base E d h pre) c))).
Proof.
  intros E s d h pre o c call more C. pose proof C as [C1 C2 C3 C4 C5 C6 C7 C8 C9 C10].
  unfold on_box. cbn [fs_of fs_full full_of fl_union fs_hash fs_cb]. rewrite C7, C8.
  change (mk_bs (gstate (g_of E o)) ((ss_prefix s ++ out_base E d h pre) ++ gbytes (g_of E o)) c)
    with (gs (g_of E o) (ss_prefix s ++ out_base E d h pre) c).
  destruct (call (op_box_cb E) (gs (g_of E o) (ss_prefix s ++ out_base E d h pre) c)) as [r1 x]. cbn [fst].
  assert (F : forall y, res_pass (fst (match bx_state (bs_box x) with BX_FINISHED => @output_finished cbctx y | _ => (R_OK, y) end)) = true).
  { intro y. destruct (bx_state (bs_box x)); try reflexivity. unfold output_finished. destruct (_ =? 0); reflexivity. }
  destruct r1; try reflexivity.
  - rewrite F. reflexivity.
  - destruct more; [reflexivity|]. rewrite F. reflexivity.
Qed.

(** ** Callbacks that succeed *)

Definition notdone (i : output_info) : Prop := forall k, oi_type i <> OT_SCRIPT_DONE k.
Lemma info_notdone : forall E d o i, oinfo_rel E d o i -> output_complete o = false -> notdone i.
Proof.
  intros E d o i R Oc k. rewrite (ri_type _ _ _ _ R). unfold out_type_of, tree_type, script_type. rewrite Oc.
  destruct (so_dest o) as [[t| |p]|]; try discriminate. destruct (tree_complete o); [|discriminate].
  fold (first_type t true). destruct (proj2 (classify_shape (output_info_init 0) t true)) as [->|(_ & [(k' & ->)|(k' & ->)] & _)]; discriminate.
Qed.
Lemma fin_pass : forall E (x : bs cbctx) i, snd (bs_cb x) = Some i -> notdone i -> res_pass (fst (box_finished (op_box_cb E) x)) = true.
Proof.
  intros E x i Hi Hn. unfold box_finished. cbn [op_box_cb on_finished]. unfold p2pk_output_finished_cb. rewrite Hi.
  unfold output_info_set_box_finished, maybe_finished. 
  destruct (output_info_is_finished (oi_set_box_finished i)); [|reflexivity].
  change (oi_type (oi_set_box_finished i)) with (oi_type i). destruct (oi_type i) eqn:T; try reflexivity.
  exfalso. exact (Hn _ T).
Qed.
Lemma tail_pass : forall E (x : bs cbctx) i, snd (bs_cb x) = Some i -> notdone i -> res_pass (fst (ergo_tree_added_tail (op_box_cb E) x)) = true.
Proof.
  intros E x i Hi Hn. unfold ergo_tree_added_tail. destruct (_ =? 0); [|reflexivity]. destruct (_ =? 0); [|reflexivity].
  apply fin_pass with i; assumption.
Qed.
Lemma added_pass : forall E (x : bs cbctx) i, snd (bs_cb x) = Some i -> notdone i ->
  res_pass (fst (ergo_tree_added (op_box_cb E) x)) = res_pass (fst (amounts_add_output (fst (bs_cb x)) (bx_type (bs_box x)) (bx_value (bs_box x)))).
Proof.
  intros E x i Hi Hn. unfold ergo_tree_added. cbn [op_box_cb on_type]. unfold p2pk_output_type_cb.
  destruct (amounts_add_output (fst (bs_cb x)) (bx_type (bs_box x)) (bx_value (bs_box x))) as [r a]. cbn [fst].
  destruct (res_pass r) eqn:Er; [|exact Er]. apply tail_pass with i; [exact Hi|exact Hn].
Qed.

(** ** Registers *)

Lemma regs_pass : forall E g h (a : cbctx) i data, gwf g -> snd a = Some i -> notdone i ->
  (res_pass (fst (box_add_registers (op_box_cb E) (gs g h a) data)) = true <->
   g_done g = true /\ blen (g_toks g) = g_ntok g /\ blen (g_regs g) < g_regs_len g /\ blen (g_regs g ++ data) <= g_regs_len g).
Proof.
  intros E g h a i data W Hi Hn. pose proof (gw_regs _ W) as Hr. unfold box_add_registers. cbn [gs bs_box gstate bx_state bx_regs_size].
  unfold g_box_state. rewrite blen_app. destruct (g_done g); cbn [negb].
  2:{ split; [discriminate|intros (X & _); discriminate]. }
  destruct (N.eqb_spec (blen (g_toks g)) (g_ntok g)) as [Et|Et]; cbn [negb].
  2:{ split; [discriminate|intros (_ & X & _); contradiction]. }
  destruct (N.eqb_spec (blen (g_regs g)) (g_regs_len g)) as [Er|Er]; cbn [negb].
  { split; [discriminate|intros (_ & _ & X & _); lia]. }
  destruct (N.ltb_spec (g_regs_len g - blen (g_regs g)) (blen data)) as [L|L].
  { split; [discriminate|intros (_ & _ & _ & X); lia]. }
  split; [intros _; repeat split; auto; lia|]. intros _.
  destruct (_ =? 0); [|reflexivity]. apply fin_pass with i; assumption.
Qed.

Lemma op_union_tx : forall E s d h op, op_tx E s d h op -> exists t, op_union_of op = OU_TX t /\ last_info E d (tx_output t) /\
  op_fs op t = fs_of E s d h (op_amounts op, tx_output t).
Proof.
  intros E s d h op X. pose proof X as (_ & _ & _ & _ & oi & _ & Hu). eexists. split; [exact Hu|].
  destruct (op_tx_fs _ _ _ _ _ _ X Hu) as [H1 H2]. split; assumption.
Qed.

Lemma regs_call_pass : forall E s d h pre o (c : cbctx) data, current E s d h pre o ->
  res_pass (fst (full_add_box_registers (op_box_cb E) (fs_of E s d h c) data)) =
  res_pass (fst (box_add_registers (op_box_cb E) (gs (g_of E o) (ss_prefix s ++ out_base E d h pre) c) data)).
Proof.
  intros E s d h pre o c data C. pose proof C as [C1 C2 C3 C4 C5 C6 C7 C8 C9 C10].
  unfold full_add_box_registers. cbn [fs_of fs_full full_of fl_state fl_union fs_hash fs_cb]. rewrite C6, C7, C8.
  change (mk_bs (gstate (g_of E o)) ((ss_prefix s ++ out_base E d h pre) ++ gbytes (g_of E o)) c)
    with (gs (g_of E o) (ss_prefix s ++ out_base E d h pre) c).
  destruct (box_add_registers (op_box_cb E) (gs (g_of E o) (ss_prefix s ++ out_base E d h pre) c) data) as [r1 x]. cbn [fst].
  destruct r1; try reflexivity. unfold output_finished. destruct (_ =? 0); reflexivity.
Qed.

Lemma registers_iff : forall E s d h op data, wf E d h -> op_tx E s d h op ->
  (okb (p2pk_add_output_registers E op data) <-> registers_ok d data).
Proof.
  intros E s d h op data W X. destruct (op_union_tx _ _ _ _ _ X) as (t & Eu & Hli & Efs).
  assert (Est : op_state_of op = op_phase d h) by apply X.
  unfold p2pk_add_output_registers. rewrite Est. split.
  - intro H. assert (P : op_phase d h = OP_OUTPUTS_STARTED).
    { destruct (op_phase d h); try (exfalso; eapply okb_fail; exact H). reflexivity. }
    rewrite P in H. apply (okb_tx_check op t _ Eu) in H. rewrite Efs in H.
    destruct (current_ok E s d h W P) as (pre & o & C). rewrite (regs_call_pass _ _ _ _ _ _ _ _ C) in H.
    destruct (last_info_cur _ _ _ _ _ Hli (cu_outs _ _ _ _ _ _ C)) as (i & Ei & Ri).
    destruct (box_add_registers (op_box_cb E) (gs (g_of E o) (ss_prefix s ++ out_base E d h pre) (op_amounts op, tx_output t)) data) as [r x] eqn:Eb.
    apply (pass_of _ _ _ _ Eb) in H. destruct (g_regs_ok _ _ _ _ _ _ _ (ow_g _ _ _ (cu_wf _ _ _ _ _ _ C)) Eb H) as (G1 & G2 & G3 & G4 & G5 & _).
    cbn [g_of g_toks g_ntok g_regs g_regs_len g_done] in *. rewrite blen_map in G2. pose proof (gw_regs _ G5) as L.
    pose proof (gw_regs _ (ow_g _ _ _ (cu_wf _ _ _ _ _ _ C))) as L0.
    cbn [g_add_regs g_of g_regs g_regs_len] in L, L0.
    exists o. split; [exists pre; apply C|]. split; [exact G1|]. split; [exact G2|]. split; [lia|exact L].
  - intros (o & (pre & Ho) & H1 & H2 & H3 & H4).
    assert (Oc : output_complete o = false).
    { unfold output_complete. replace (blen (so_regs o) =? so_regs_len o) with false by (symmetry; apply N.eqb_neq; lia). apply andb_false_r. }
    destruct (cur_incomplete E s d h pre o W Ho Oc) as [P C]. rewrite P. apply (okb_tx_check op t _ Eu). rewrite Efs.
    rewrite (regs_call_pass _ _ _ _ _ _ _ _ C).
    destruct (last_info_cur _ _ _ _ _ Hli Ho) as (i & Ei & Ri).
    apply (regs_pass E _ _ _ i); [apply C|exact Ei|apply (info_notdone _ _ _ _ Ri Oc)|].
    cbn [g_of g_toks g_ntok g_regs g_regs_len g_done]. rewrite blen_map. auto.
Qed.

(** ** Script chunks *)

Lemma chunk_succ : forall E fin i data flag, oi_tree_set i = false -> oi_type i = OT_UNKNOWN \/ (exists t, oi_type i = OT_SCRIPT t) ->
  fst (output_info_add_tree_chunk (e_blake E) (oi_finish E fin i) data flag) = SW_OK.
Proof.
  intros E fin [iv it ity its ibf] data flag Hs Ht. cbn [oi_tree_set oi_type] in *. subst its.
  assert (Hf : exists f', oi_finish E fin (mk_oi iv it ity false ibf) = mk_oi iv it ity false f').
  { unfold oi_finish. destruct fin; eexists; reflexivity. }
  destruct Hf as [f' ->]. unfold output_info_add_tree_chunk. cbn [oi_type oi_tree_set].
  assert (M : forall c, notdone c -> fst (maybe_finished_sw (e_blake E) c) = SW_OK).
  { intros c Hc. unfold maybe_finished_sw, maybe_finished. destruct (output_info_is_finished c); [|reflexivity].
    destruct (oi_type c) eqn:T; try reflexivity. exfalso. exact (Hc _ T). }
  destruct Ht as [->|[t ->]].
  - destruct (classify_shape (mk_oi iv it OT_UNKNOWN false f') data flag) as [Sh Cs]. rewrite Sh. cbn [oi_type oi_value oi_tokens oi_tree_set oi_box_finished].
    destruct Cs as [->|(_ & [[k ->]|[k ->]] & _)]; apply M; intro; destruct flag; cbn; discriminate.
  - apply M. intro. destruct flag; cbn; discriminate.
Qed.

Lemma script_iff : forall E s d h op data, blen data <= 255 -> wf E d h -> op_tx E s d h op ->
  (okb (p2pk_add_output_tree_chunk E op data) <-> script_ok d data).
Proof.
  intros E s d h op data Hlen W X. destruct (op_union_tx _ _ _ _ _ X) as (t & Eu & Hli & Efs).
  assert (Est : op_state_of op = op_phase d h) by apply X.
  assert (Sf : forall o, tree_complete o = false -> script_so_far o = o_tree E o).
  { intros o. unfold tree_complete, script_so_far, o_tree. destruct (so_dest o) as [[y| |p]|]; intro; try discriminate; reflexivity. }
  unfold p2pk_add_output_tree_chunk. rewrite Est, Eu, Efs. split.
  - intro H. assert (P : op_phase d h = OP_OUTPUTS_STARTED).
    { destruct (op_phase d h); try (exfalso; eapply okb_fail; exact H). reflexivity. }
    rewrite P in H. destruct (current_ok E s d h W P) as (pre & o & C).
    unfold full_add_box_ergo_tree in H. change (fl_state (fs_full (fs_of E s d h (op_amounts op, tx_output t)))) with (phase_of d h) in H.
    rewrite (cu_phase _ _ _ _ _ _ C) in H.
    assert (Hp : res_pass (fst (on_box (op_box_cb E) (fs_of E s d h (op_amounts op, tx_output t)) (fun cb x => box_add_tree cb x data) true)) = true).
    { destruct (on_box _ _ _ _) as [r x]. cbn [fst]. destruct r; try reflexivity; exfalso; eapply okb_fail; exact H. }
    clear H. rewrite (on_box_pass _ _ _ _ _ _ _ _ _ C) in Hp. cbv beta in Hp.
    destruct (box_add_tree (op_box_cb E) (gs (g_of E o) (ss_prefix s ++ out_base E d h pre) (op_amounts op, tx_output t)) data) as [r x] eqn:Eb.
    apply (pass_of _ _ _ _ Eb) in Hp. destruct (g_tree_ok _ _ _ _ _ _ _ (ow_g _ _ _ (cu_wf _ _ _ _ _ _ C)) Eb Hp) as (G1 & G2 & G3 & G4 & _).
    cbn [g_of g_tree g_tree_len g_done] in *. pose proof (gw_tree _ G3 eq_refl) as L. cbn [g_set_tree g_tree g_tree_len] in L.
    exists o. split; [exists pre; apply C|]. split; [exact G1|]. rewrite (Sf o G1). split; [exact L|].
    destruct (N.eqb_spec (blen (o_tree E o ++ data)) (so_tree_len o)) as [e|e]; [left; exact e|right]. specialize (G4 eq_refl).
    unfold blen in *. lia.
  - intros (o & (pre & Ho) & H1 & H2 & H3). rewrite (Sf o H1) in H2, H3.
    assert (Oc : output_complete o = false) by (unfold output_complete; rewrite H1; reflexivity).
    destruct (cur_incomplete E s d h pre o W Ho Oc) as [P C]. rewrite P.
    destruct (last_info_cur _ _ _ _ _ Hli Ho) as (i & Ei & Ri).
    unfold full_add_box_ergo_tree. change (fl_state (fs_full (fs_of E s d h (op_amounts op, tx_output t)))) with (phase_of d h).
    rewrite (cu_phase _ _ _ _ _ _ C).
    set (H0 := ss_prefix s ++ out_base E d h pre).
    assert (Pc : res_pass (fst (box_add_tree (op_box_cb E) (gs (g_of E o) H0 (op_amounts op, tx_output t)) data)) = true).
    { pose proof (gw_type _ (ow_g _ _ _ (cu_wf _ _ _ _ _ _ C)) H1) as Ty. rewrite blen_app in H2, H3.
      pose proof (gw_tree _ (ow_g _ _ _ (cu_wf _ _ _ _ _ _ C)) Ty) as L.
      unfold box_add_tree. cbn [gs bs_box gstate bx_state bx_tree_size].
      unfold g_box_state, g_tree_left. rewrite Ty. cbn [g_of g_done g_tree g_tree_len] in *. rewrite H1. cbn [negb].
      replace (so_tree_len o - blen (o_tree E o) <? blen data) with false by (symmetry; apply N.ltb_ge; lia).
      replace ((blen data <? so_tree_len o - blen (o_tree E o)) && (blen data <? MAX_DATA_CHUNK_LEN)) with false.
      2:{ symmetry. apply andb_false_iff. unfold MAX_DATA_CHUNK_LEN. destruct H3 as [H3|H3]; [left|right]; apply N.ltb_ge; unfold blen in *; lia. }
      destruct (_ =? 0); [|reflexivity]. rewrite added_pass with (i := i); [reflexivity|exact Ei|apply (info_notdone _ _ _ _ Ri Oc)]. }
    pose proof (eq_trans (on_box_pass E s d h pre o (op_amounts op, tx_output t) (fun cb x => box_add_tree cb x data) true C) Pc) as Pd.
    clear Pc. rename Pd into Pc.
    destruct (on_box (op_box_cb E) (fs_of E s d h (op_amounts op, tx_output t)) (fun cb x => box_add_tree cb x data) true) as [r fs'] eqn:Ef.
    cbn [fst] in Pc.
    destruct (on_box_ok _ _ _ _ _ _ _ _ _ _ _ W C Ef Pc) as (r1 & x & Hc & Hr1 & _ & Hcb & _).
    destruct (g_tree_ok _ _ _ _ _ _ _ (ow_g _ _ _ (cu_wf _ _ _ _ _ _ C)) Hc Hr1) as (G1 & G2 & G3 & G4 & a1 & G5 & G6 & G7).
    assert (Sn : snd a1 = Some i).
    { destruct (_ =? _) in G5; [apply type_cb_snd in G5; rewrite G5; exact Ei|rewrite G5; exact Ei]. }
    destruct (fin_cb_ok _ _ _ _ _ i G6 Sn) as [_ Q]. rewrite <- Hcb in Q.
    assert (Ts : oi_tree_set i = false) by (rewrite (ri_tree_set _ _ _ _ Ri); exact H1).
    assert (Tt : oi_type i = OT_UNKNOWN \/ (exists y, oi_type i = OT_SCRIPT y)).
    { rewrite (ri_type _ _ _ _ Ri). unfold out_type_of, tree_type. unfold tree_complete in H1 |- *.
      destruct (so_dest o) as [[y| |p]|]; try discriminate; [rewrite H1; right; eexists; reflexivity|left; reflexivity]. }
    assert (Go : forall flag, okb (bind (output_call (op_put op t fs') (fun o0 => output_info_add_tree_chunk (e_blake E) o0 data flag)) check_tx_finished)).
    { intro flag. unfold output_call. cbn [op_put op_union_of tx_output]. rewrite Q.
      match goal with |- context [oi_finish E ?f i] => pose proof (chunk_succ E f i data flag Ts Tt) as Ch end.
      destruct (output_info_add_tree_chunk _ _ _ _) as [w i']. cbn [fst] in Ch. subst w. cbn [bind]. eapply check_pass. reflexivity. }
    destruct r; try discriminate; apply Go.
Qed.

(** ** Fee and change scripts *)

Definition whole_exec (E : env) (type : box_type) (tree : bytes) (T : out_type) (op : p2pk) : out p2pk :=
  bind (tx_call op (fun x => match fl_state (fs_full x) with
                             | FL_OUTPUTS_STARTED => on_box (op_box_cb E) x (whole_call type tree) false
                             | _ => full_res_error x R_BAD_STATE
                             end)) (fun op1 =>
  bind (output_call op1 (fun i => match oi_type i with
                                  | OT_UNKNOWN => maybe_finished_sw (e_blake E) (oi_set_tree_set (oi_set_type i T))
                                  | _ => (SW_BAD_STATE, i)
                                  end)) check_tx_finished).

Lemma whole_iff : forall E s d h op type tree T,
  wf E d h -> op_tx E s d h op -> type <> BT_TREE ->
  match T with OT_SCRIPT _ | OT_SCRIPT_DONE _ => False | _ => True end ->
  (okb (match op_state_of op with OP_OUTPUTS_STARTED => whole_exec E type tree T op | _ => Fail SW_BAD_STATE end) <->
   exists o, current_output d o /\ so_dest o = None /\ so_value o <= am_value (op_amounts op)).
Proof.
  intros E s d h op type tree T W X Hty HT. destruct (op_union_tx _ _ _ _ _ X) as (t & Eu & Hli & Efs).
  assert (Est : op_state_of op = op_phase d h) by apply X.
  pose proof X as (_ & _ & _ & Ha & _). destruct (amounts_value_bounds _ _ Ha) as [Hv Hf].
  rewrite Est. unfold whole_exec. split.
  - intro H. assert (P : op_phase d h = OP_OUTPUTS_STARTED).
    { destruct (op_phase d h); try (exfalso; eapply okb_fail; exact H). reflexivity. }
    rewrite P in H. destruct (current_ok E s d h W P) as (pre & o & C). pose proof (cu_outs _ _ _ _ _ _ C) as Ho.
    apply okb_bind in H as (op1 & H & H2). apply tx_call_ok in H as (t' & r & fs' & Eu' & Ef & Hr & ->).
    assert (t' = t) as -> by congruence. clear Eu'. rewrite Efs in Ef. cbv beta in Ef.
    change (fl_state (fs_full (fs_of E s d h (op_amounts op, tx_output t)))) with (phase_of d h) in Ef.
    rewrite (cu_phase _ _ _ _ _ _ C) in Ef.
    destruct (on_box_ok _ _ _ _ _ _ _ _ _ _ _ W C Ef Hr) as (r1 & x & Hc & Hr1 & _ & Hcb & _).
    destruct (last_info_cur _ _ _ _ _ Hli Ho) as (i & Ei & Ri).
    apply okb_bind in H2 as (op2 & H2 & _). apply output_call_ok in H2 as (t1 & i1 & i' & K1 & K2 & K3 & _).
    cbn [op_put op_union_of] in K1. injection K1 as <-. cbn [tx_output] in K2.
    assert (Tc : tree_complete o = false).
    { destruct (tree_complete o) eqn:Ed; [|reflexivity]. exfalso. unfold whole_call, gs in Hc. cbn [bs_box gstate bx_state] in Hc.
      unfold g_box_state in Hc. change (g_done (g_of E o)) with (tree_complete o) in Hc. rewrite Ed in Hc.
      cbn [negb] in Hc. unfold box_res_error in Hc.
      destruct (_ =? _); cbn [negb] in Hc; [destruct (_ =? _); cbn [negb] in Hc|]; injection Hc as <- <-; discriminate. }
    unfold whole_call in Hc. change (bx_state (bs_box (gs (g_of E o) (ss_prefix s ++ out_base E d h pre) (op_amounts op, tx_output t))))
      with (g_box_state (g_of E o)) in Hc. unfold g_box_state in Hc. change (g_done (g_of E o)) with (tree_complete o) in Hc.
    rewrite Tc in Hc. cbn [negb] in Hc. apply tree_added_cbs in Hc as (a1 & fin & G1 & G2); [|assumption].
    cbn [bs_cb bs_with_box bs_feed gs bs_box gstate bx_type box_set_type bx_value] in G1.
    change (g_value (g_of E o)) with (so_value o) in G1.
    pose proof (type_cb_snd _ _ _ _ _ G1) as G3. cbn [snd] in G3. rewrite Ei in G3.
    destruct (fin_cb_ok _ _ _ _ _ i G2 G3) as [_ G4]. rewrite <- Hcb, K2 in G4. injection G4 as ->.
    assert (Ety : oi_type (oi_finish E fin i) = oi_type i).
    { unfold oi_finish. destruct fin; [|reflexivity]. cbn. rewrite (ri_tree_set _ _ _ _ Ri), Tc. reflexivity. }
    rewrite Ety, (ri_type _ _ _ _ Ri) in K3. exists o. split; [exists pre; exact Ho|]. split.
    + unfold out_type_of in K3. unfold tree_complete in Tc. destruct (so_dest o) as [[y| |p]|] eqn:Edd; try discriminate; [|reflexivity].
      exfalso. unfold tree_type, tree_complete in K3. rewrite Edd, Tc in K3. discriminate.
    + destruct (type_cb_ok _ _ _ _ _ G1) as [_ Q2]; cbn [fst snd] in *; try assumption.
      { apply (gw_value _ (ow_g _ _ _ (cu_wf _ _ _ _ _ _ C))). }
      destruct type; [apply Q2|apply Q2|contradiction].
  - intros (o & (pre & Ho) & Hd & Hle).
    assert (Tc : tree_complete o = false) by (unfold tree_complete; rewrite Hd; reflexivity).
    assert (Oc : output_complete o = false) by (unfold output_complete; rewrite Tc; reflexivity).
    destruct (cur_incomplete E s d h pre o W Ho Oc) as [P C]. rewrite P.
    destruct (last_info_cur _ _ _ _ _ Hli Ho) as (i & Ei & Ri).
    pose proof (gw_value _ (ow_g _ _ _ (cu_wf _ _ _ _ _ _ C))) as V64. change (g_value (g_of E o)) with (so_value o) in V64.
    set (H0 := ss_prefix s ++ out_base E d h pre).
    assert (Pc : res_pass (fst (whole_call type tree (op_box_cb E) (gs (g_of E o) H0 (op_amounts op, tx_output t)))) = true).
    { unfold whole_call. change (bx_state (bs_box (gs (g_of E o) H0 (op_amounts op, tx_output t)))) with (g_box_state (g_of E o)).
      unfold g_box_state. change (g_done (g_of E o)) with (tree_complete o). rewrite Tc. cbn [negb].
      rewrite added_pass with (i := i); [|exact Ei|apply (info_notdone _ _ _ _ Ri Oc)].
      cbn [bs_cb bs_with_box bs_feed gs bs_box gstate bx_type box_set_type bx_value fst]. change (g_value (g_of E o)) with (so_value o).
      assert (Hsum : am_fee (op_amounts op) + so_value o < two64).
      { destruct Ha as [A1 A2 A3 _ _]. lia. }
      unfold amounts_add_output. destruct type; [| |contradiction].
      all: rewrite checked_sub_u64_exact by assumption; rewrite (proj2 (N.leb_le _ _) Hle).
      - cbn [am_fee am_set_value]. rewrite checked_add_u64_exact by assumption. rewrite (proj2 (N.ltb_lt _ _) Hsum). reflexivity.
      - reflexivity. }
    pose proof (eq_trans (on_box_pass E s d h pre o (op_amounts op, tx_output t) (whole_call type tree) false C) Pc) as Pd.
    clear Pc. rename Pd into Pc.
    assert (Hcall : exists op1, tx_call op (fun x => match fl_state (fs_full x) with
                             | FL_OUTPUTS_STARTED => on_box (op_box_cb E) x (whole_call type tree) false
                             | _ => full_res_error x R_BAD_STATE
                             end) = Ok op1).
    { apply (okb_tx_call op t _ Eu). rewrite Efs.
      change (fl_state (fs_full (fs_of E s d h (op_amounts op, tx_output t)))) with (phase_of d h).
      rewrite (cu_phase _ _ _ _ _ _ C). exact Pc. }
    destruct Hcall as [op1 Hcall]. rewrite Hcall. cbn [bind].
    apply tx_call_ok in Hcall as (t' & r & fs' & Eu' & Ef & Hr & ->).
    assert (t' = t) as -> by congruence. clear Eu'. rewrite Efs in Ef. cbv beta in Ef.
    change (fl_state (fs_full (fs_of E s d h (op_amounts op, tx_output t)))) with (phase_of d h) in Ef.
    rewrite (cu_phase _ _ _ _ _ _ C) in Ef.
    destruct (on_box_ok _ _ _ _ _ _ _ _ _ _ _ W C Ef Hr) as (r1 & x & Hc & Hr1 & _ & Hcb & _).
    fold H0 in Hc. unfold whole_call in Hc. change (bx_state (bs_box (gs (g_of E o) H0 (op_amounts op, tx_output t)))) with (g_box_state (g_of E o)) in Hc.
    unfold g_box_state in Hc. change (g_done (g_of E o)) with (tree_complete o) in Hc.
    rewrite Tc in Hc. cbn [negb] in Hc. apply tree_added_cbs in Hc as (a1 & fin & G1 & G2); [|assumption].
    cbn [bs_cb bs_with_box bs_feed gs] in G1.
    pose proof (type_cb_snd _ _ _ _ _ G1) as G3. cbn [snd] in G3. rewrite Ei in G3.
    destruct (fin_cb_ok _ _ _ _ _ i G2 G3) as [_ G4]. rewrite <- Hcb in G4.
    unfold output_call. cbn [op_put op_union_of tx_output]. rewrite G4.
    assert (Ety : oi_type (oi_finish E fin i) = OT_UNKNOWN).
    { transitivity (oi_type i).
      - unfold oi_finish. destruct fin; [|reflexivity]. cbn. rewrite (ri_tree_set _ _ _ _ Ri), Tc. reflexivity.
      - rewrite (ri_type _ _ _ _ Ri). unfold out_type_of. rewrite Hd. reflexivity. }
    rewrite Ety.
    assert (M : forall c, notdone c -> fst (maybe_finished_sw (e_blake E) c) = SW_OK).
    { intros c Hc. unfold maybe_finished_sw, maybe_finished. destruct (output_info_is_finished c); [|reflexivity].
      destruct (oi_type c) eqn:Tq; try reflexivity. exfalso. exact (Hc _ Tq). }
    assert (Mn : notdone (oi_set_tree_set (oi_set_type (oi_finish E fin i) T))).
    { intro k. cbn. destruct T; try discriminate; contradiction. }
    specialize (M _ Mn). destruct (maybe_finished_sw _ _) as [w i']. cbn [fst] in M. subst w. cbn [bind]. eapply check_pass. reflexivity.
Qed.

Lemma whole_sum : forall d a pre o D, amounts_rel d a -> sx_outputs d = pre ++ [o] -> so_dest o = None ->
  (is_fee (set_dest (fun _ => D) o) = true /\ is_change (set_dest (fun _ => D) o) = false \/
   is_fee (set_dest (fun _ => D) o) = false /\ is_change (set_dest (fun _ => D) o) = true) ->
  let d' := on_outputs (upd_last (set_dest (fun _ => D))) d in
  (so_value o <= am_value a <-> fees d' + change d' <= total_in d').
Proof.
  intros d a pre o D Ha Ho Hd HD d'. unfold d'. rewrite (upd_outs _ _ _ _ Ho). set (o' := set_dest (fun _ => D) o) in *.
  destruct Ha as [A1 A2 A3 _ _]. rewrite <- (with_outs_same d) in A2. rewrite Ho, !fees_snoc, !change_snoc in A2.
  rewrite fees_snoc, change_snoc. change (total_in (with_outs d (pre ++ [o']))) with (total_in d).
  change (total_in (with_outs d (pre ++ [o]))) with (total_in d) in A2.
  replace (is_fee o) with false in A2 by (unfold is_fee; rewrite Hd; reflexivity).
  replace (is_change o) with false in A2 by (unfold is_change; rewrite Hd; reflexivity).
  change (so_value o') with (so_value o). destruct HD as [[-> ->]|[-> ->]]; lia.
Qed.

Lemma fee_iff : forall E s d h op data, wf E d h -> op_tx E s d h op ->
  (okb (bind (finished data tt) (fun _ => p2pk_add_output_tree_fee E op)) <-> fee_ok d data (describe_cmd d 0x17 data)).
Proof.
  intros E s d h op data W X. pose proof X as (_ & _ & _ & Ha & _).
  pose proof (whole_iff E s d h op BT_FEE FEE_TREE OT_MINERS_FEE W X ltac:(discriminate) I) as K.
  assert (Sm : forall o, current_output d o -> so_dest o = None ->
    (so_value o <= am_value (op_amounts op) <-> fees (describe_cmd d 0x17 data) + change (describe_cmd d 0x17 data) <= total_in (describe_cmd d 0x17 data))).
  { intros o [pre Ho] Hd. apply (whole_sum d _ pre o SD_FEE Ha Ho Hd). left. split; reflexivity. }
  rewrite okb_bind. unfold fee_ok. split.
  - intros (u & Hf & H). apply finished_ok in Hf as [-> _]. split; [reflexivity|].
    apply K in H as (o & H1 & H2 & H3). split; [exists o; split; assumption|]. apply (Sm o H1 H2). exact H3.
  - intros (-> & (o & H1 & H2) & H3). exists tt. split; [reflexivity|]. apply K. exists o. split; [exact H1|]. split; [exact H2|].
    apply (Sm o H1 H2). exact H3.
Qed.

Lemma read_u32s_ex : forall n l, (4 * n <= length l)%nat -> exists p, read_u32s n l = Some p.
Proof.
  induction n as [|n IH]; intros l L; [eexists; reflexivity|]. cbn [read_u32s]. unfold read_u32. rewrite read_be_ex by lia.
  destruct (IH (skipn 4 l)) as [[q r] ->]; [rewrite skipn_length; lia|]. eexists. reflexivity.
Qed.
Lemma path_iff : forall data, (okb (stx_read_bip32_path data) <->
  (1 <= length data)%nat /\ (1 + 4 * length (path_at 0 data) <= length data)%nat /\ (1 <= length (path_at 0 data) <= 10)%nat).
Proof.
  intro data. unfold stx_read_bip32_path. destruct data as [|n l].
  { split; [intros [x H]; discriminate|]. cbn. lia. }
  assert (Ln : length (path_at 0 (n :: l)) = N.to_nat n).
  { unfold path_at. rewrite map_length, seq_length. change (n :: l) with ([n] ++ l). rewrite (num_head [n] l 1 eq_refl).
    unfold be_value. cbn. lia. }
  rewrite Ln, read_u8_cons. unfold read_bip32_path, MAX_BIP32_PATH. cbn [length].
  destruct (N.eqb_spec n 0) as [->|Hn]; cbn [orb].
  { split; [intros [x H]; discriminate|]. lia. }
  destruct (N.ltb_spec 10 n) as [L|L].
  { split; [intros [x H]; discriminate|]. lia. }
  split.
  - intros [x H]. destruct (read_u32s (N.to_nat n) l) as [[q r]|] eqn:E; [|discriminate]. apply read_u32s_spec in E as (_ & L2 & _). lia.
  - intros (_ & L2 & _). destruct (read_u32s_ex (N.to_nat n) l) as [[q r] ->]; [lia|]. apply okb_ok.
Qed.

Lemma change_iff : forall E s d h op data, env_ok E -> wf E d h -> op_tx E s d h op ->
  (okb (bind (stx_read_bip32_path data) (fun '(p, _) =>
          if negb (ergo_path_validate p V_ADDRESS_GE5) then Fail SW_BIP32_BAD_PATH
          else match generate_public_key E p with
               | None => Fail SW_INTERNAL_CRYPTO_ERROR
               | Some (pk, _) => p2pk_add_output_tree_change E op p pk
               end)) <-> change_to_ok E d data (describe_cmd d 0x18 data)).
Proof.
  intros E s d h op data Henv W X. pose proof X as (_ & _ & _ & Ha & _). set (p := path_at 0 data).
  assert (Sm : forall o, current_output d o -> so_dest o = None ->
    (so_value o <= am_value (op_amounts op) <-> fees (describe_cmd d 0x18 data) + change (describe_cmd d 0x18 data) <= total_in (describe_cmd d 0x18 data))).
  { intros o [pre Ho] Hd. apply (whole_sum d _ pre o (SD_CHANGE p) Ha Ho Hd). right. split; reflexivity. }
  assert (K : forall w, okb (p2pk_add_output_tree_change E op p w) <->
     exists o, current_output d o /\ so_dest o = None /\ so_value o <= am_value (op_amounts op)).
  { intro w. apply (whole_iff E s d h op BT_CHANGE (ergo_tree_generate_p2pk w) (OT_BIP32 p) W X ltac:(discriminate) I). }
  rewrite okb_bind. unfold change_to_ok. fold p. split.
  - intros ([q rest] & Hp & H). assert (Hq : okb (stx_read_bip32_path data)) by (eexists; exact Hp).
    apply path_iff in Hq. fold p in Hq. pose proof (read_path_spec _ _ _ Hp) as ->. fold p in H.
    destruct (ergo_path_validate p V_ADDRESS_GE5) eqn:Ev; cbn [negb] in H; [|exfalso; eapply okb_fail; exact H].
    destruct (generate_public_key E p) as [[pk ch]|] eqn:Eg; [|exfalso; eapply okb_fail; exact H].
    apply K in H as (o & H1 & H2 & H3). split; [exists o; split; assumption|]. split; [apply (Sm o H1 H2); exact H3|].
    split; [lia|]. split; [lia|]. split; [lia|]. split; [apply address_path_form; exact Ev|].
    destruct (key_at_gen _ _ _ _ Henv Eg) as [G _]. eexists. eexists. exact G.
  - intros ((o & H1 & H2) & H3 & L1 & L2 & L3 & Hap & pk & chain & sk & raw & D1 & D2 & D3).
    assert (Hq : okb (stx_read_bip32_path data)).
    { apply path_iff. fold p. split; [exact L1|]. split; [exact L2|]. split; [|exact L3].
      destruct Hap as (a & c & i & t & -> & _). cbn. lia. }
    destruct Hq as [[q rest] Hp]. exists (q, rest). split; [exact Hp|]. pose proof (read_path_spec _ _ _ Hp) as ->. fold p.
    rewrite (proj2 (validate_address_ge5 p) Hap). cbn [negb]. unfold generate_public_key. rewrite D1, D2.
    apply K. exists o. split; [exact H1|]. split; [exact H2|]. apply (Sm o H1 H2). exact H3.
Qed.

(** ** Tokens *)

Lemma once_zero : forall a id v b, once (a ++ (id, v) :: b) -> amount_of id a = 0.
Proof.
  intros a id v b H. induction a as [|[j w] a IH]; [reflexivity|]. rewrite amount_of_cons.
  assert (Ht : once (a ++ (id, v) :: b)).
  { intros p x q Eq. apply (H ((j, w) :: p) x q). cbn [app]. rewrite Eq. reflexivity. }
  rewrite (IH Ht). destruct (bytes_eqb j id) eqn:Ej; [|reflexivity]. apply bytes_eqb_eq in Ej. subst j.
  destruct (N.eq_dec w 0) as [->|Hw]; [reflexivity|]. exfalso.
  apply (H [] (id, w) (a ++ (id, v) :: b)); [reflexivity|exact Hw|]. cbn [fst]. rewrite map_app. apply in_or_app. right. left. reflexivity.
Qed.
Lemma add_output_token_succ : forall c b id v, am_rel c b -> v < two64 -> In id (am_table c) -> (- 2 ^ 63 <= b id - Z.of_N v)%Z ->
  exists c', amounts_add_output_token c id v = (R_OK, c').
Proof.
  intros c b id v R Hv Hin Hb. unfold amounts_add_output_token.
  destruct (find_spec (am_table c) id (ar_table _ _ R)) as [(Hi & Hl & Hn & Hf & _)|[_ Hn]]; [|contradiction].
  set (i := token_table_find_token_index (am_table c) id) in *.
  rewrite (proj2 (N.eqb_neq i INDEX_NOT_EXIST)) by assumption.
  pose proof (ar_table _ _ R). pose proof (ar_len _ _ R). rewrite tok_get_nth by lia.
  assert (Es : nth (N.to_nat i) (am_tokens c) 0%Z = b id).
  { rewrite (ar_slot _ _ R) by lia. rewrite Hf, Hn. reflexivity. }
  rewrite checked_sub_i64_exact; [|rewrite Es; apply R|assumption]. rewrite Es.
  assert (Eok : i64_ok (b id - Z.of_N v) = true).
  { pose proof (ar_range _ _ R id) as K. unfold i64_ok in *. apply andb_true_iff in K as [K1 K2]. apply Z.leb_le in K1, K2.
    apply andb_true_iff. split; apply Z.leb_le; lia. }
  rewrite Eok. eexists. reflexivity.
Qed.
Lemma oi_add_token_succ : forall o t f id v, (length t <= 20)%nat -> oi_rel (oi_tokens o) t f -> In id t -> f id = 0 ->
  exists o', output_info_add_token o t id v = (R_OK, o').
Proof.
  intros o t f id v Ht R Hin Hz. unfold output_info_add_token.
  destruct (find_spec t id Ht) as [(Hi & Hl & Hn & Hf & _)|[_ Hn]]; [|contradiction].
  set (i := token_table_find_token_index t id) in *.
  rewrite (proj2 (N.eqb_neq i INDEX_NOT_EXIST)) by assumption.
  pose proof (or_len _ _ _ R) as Lo. rewrite (nth_error_nth' _ 0) by lia. rewrite (or_slot _ _ _ R) by lia. rewrite Hf, Hn, Hz.
  cbn [negb]. rewrite N.eqb_refl. eexists. reflexivity.
Qed.

Lemma box_tokens_loop_succ : forall E table fuel (x : bs cbctx) input b f i l0,
  (length input < fuel)%nat -> bytes_ok input = true ->
  am_rel (fst (bs_cb x)) b -> snd (bs_cb x) = Some i -> oi_rel (oi_tokens i) (am_table (fst (bs_cb x))) f ->
  let es := entries 12 input in
  let l := map (tok_entry (Some table)) es in
  Forall (fun e => length e = 12%nat /\ num 0 4 e < fst table) es ->
  Forall (fun t => In (fst t) (am_table (fst (bs_cb x)))) l ->
  blen es <= bx_tokens_count (bs_box x) ->
  (forall y, (- 2 ^ 63 <= b y - Z.of_N (amount_of y l))%Z) ->
  once (l0 ++ l) -> (forall y, amount_of y l0 = f y) ->
  exists x', box_tokens_loop (op_box_cb E) fuel (Some table) x input = (R_OK, x').
Proof.
  intros E table fuel. induction fuel as [|k IH]; intros x input b f i l0 Hf Hok R Hi O es l F T Hn Hb Ho Hl0; [lia|].
  cbn [box_tokens_loop]. destruct input as [|y0 input]; [eexists; reflexivity|]. remember (y0 :: input) as inp eqn:Ei.
  assert (Li : (0 < length inp)%nat) by (subst; cbn; lia). clear Ei.
  assert (F12 : Forall (fun e => length e = 12%nat) es) by (eapply Forall_impl; [|exact F]; intros e [He _]; exact He).
  assert (L : (12 <= length inp)%nat).
  { destruct (entries_len 12 inp ltac:(lia) F12) as (m & Em & _). destruct m; lia. }
  assert (L1 : length (firstn 12 inp) = 12%nat) by (apply firstn_length_le; lia).
  assert (Een : es = firstn 12 inp :: entries 12 (skipn 12 inp)).
  { unfold es. rewrite <- (entries_app 12 (firstn 12 inp)) by (assumption || lia). rewrite firstn_skipn. reflexivity. }
  unfold l in *. clear l. rewrite Een in F, T, Hn, Hb, Ho. clear es Een F12.
  apply Forall_cons_iff in F as [[_ F1] F]. cbn [map] in T, Hb, Ho. apply Forall_cons_iff in T as [T1 T]. rewrite blen_cons in Hn.
  assert (S1 : num 0 4 (firstn 12 inp) = num 0 4 inp).
  { unfold num, slice. cbn [skipn]. rewrite firstn_firstn. reflexivity. }
  assert (S2 : num 4 8 (firstn 12 inp) = num 4 8 inp).
  { unfold num, slice. f_equal. rewrite skipn_firstn_comm. rewrite firstn_firstn. reflexivity. }
  destruct table as [distinct ids]. cbn [fst] in F1. 
  assert (Ete : tok_entry (Some (distinct, ids)) (firstn 12 inp) = (nth (N.to_nat (num 0 4 inp)) ids zero_id, num 4 8 inp)).
  { unfold tok_entry. rewrite S1, S2. reflexivity. }
  rewrite Ete in T1, Hb, Ho. cbn [fst] in T1. rewrite S1 in F1.
  set (id := nth (N.to_nat (num 0 4 inp)) ids zero_id) in *.
  assert (Bv : num 4 8 inp < two64) by (apply (num_bound 4 8); assumption).
  assert (Hone : exists x1, box_one_token (op_box_cb E) (Some (distinct, ids)) x inp = (R_OK, x1, skipn 12 inp) /\
     am_rel (fst (bs_cb x1)) (AmountProofs.upd b id (- Z.of_N (num 4 8 inp))) /\ am_table (fst (bs_cb x1)) = am_table (fst (bs_cb x)) /\
     bx_tokens_count (bs_box x1) = bx_tokens_count (bs_box x) - 1 /\
     exists i1, snd (bs_cb x1) = Some i1 /\ oi_rel (oi_tokens i1) (am_table (fst (bs_cb x))) (updN f id (num 4 8 inp))).
  { unfold box_one_token. replace (bx_tokens_count (bs_box x) =? 0) with false by (symmetry; apply N.eqb_neq; lia).
    unfold read_u32. rewrite read_be_ex by lia. replace (distinct <=? num 0 4 inp) with false by (symmetry; apply N.leb_gt; exact F1).
    fold id. unfold box_token_value, read_u64. rewrite read_be_ex by (rewrite skipn_length; lia).
    replace (skipn 8 (skipn 4 inp)) with (skipn 12 inp) by (rewrite skipn_add; reflexivity).
    change (num 0 8 (skipn 4 inp)) with (num 4 8 inp). set (v := num 4 8 inp) in *. clearbody v.
    cbn [op_box_cb on_token]. unfold p2pk_output_token_cb. cbn [bs_feed bs_cb bs_box]. rewrite Hi.
    assert (Z0 : f id = 0) by (rewrite <- Hl0; eapply once_zero; exact Ho).
    destruct (oi_add_token_succ i _ f id v (ar_table _ _ R) O T1 Z0) as [i1 Hi1].
    destruct (oi_add_token_ok _ _ _ _ _ _ (ar_table _ _ R) O Hi1) as (_ & _ & O' & _).
    assert (Hb1 : (- 2 ^ 63 <= b id - Z.of_N v)%Z).
    { specialize (Hb id). rewrite amount_of_cons, bytes_eqb_refl in Hb. lia. }
    destruct (add_output_token_succ (fst (bs_cb x)) b id v R Bv T1 Hb1) as [a Ea].
    destruct (add_output_token_ok _ _ _ _ _ R Bv Ea) as (R' & _ & _ & G3 & _).
    match goal with |- context [output_info_add_token ?a1 ?a2 ?a3 ?a4] =>
      replace (output_info_add_token a1 a2 a3 a4) with (R_OK, i1) by (symmetry; exact Hi1) end.
    match goal with |- context [amounts_add_output_token ?a1 ?a2 ?a3] =>
      replace (amounts_add_output_token a1 a2 a3) with (R_OK, a) by (symmetry; exact Ea) end.
    cbn [res_pass]. eexists. split; [reflexivity|]. cbn [bs_with_box bs_with_cb bs_cb bs_feed bs_box fst snd box_set_tokens_count bx_tokens_count].
    split; [exact R'|]. split; [exact G3|]. split; [reflexivity|]. exists i1. split; [reflexivity|exact O']. }
  destruct Hone as (x1 & Hx & R1 & Et & Ec & i1 & Ei1 & O1). 
  match goal with |- context [box_one_token ?a1 ?a2 ?a3 ?a4] =>
      replace (box_one_token a1 a2 a3 a4) with (R_OK, x1, skipn 12 inp) by (symmetry; exact Hx) end.
  apply (IH x1 (skipn 12 inp) (AmountProofs.upd b id (- Z.of_N (num 4 8 inp))) (updN f id (num 4 8 inp)) i1 (l0 ++ [(id, num 4 8 inp)])).
  - rewrite skipn_length. lia.
  - apply bytes_ok_skipn. exact Hok.
  - exact R1.
  - exact Ei1.
  - rewrite Et. exact O1.
  - exact F.
  - rewrite Et. exact T.
  - rewrite Ec. lia.
  - intro y. specialize (Hb y). rewrite amount_of_cons in Hb. unfold AmountProofs.upd. destruct (bytes_eqb id y); lia.
  - rewrite <- app_assoc. exact Ho.
  - intro y. rewrite amount_of_app, amount_of_cons, amount_of_nil, Hl0. unfold updN. lia.
Qed.

Lemma out_tokens_iff : forall E s d h op data, bytes_ok data = true -> wf E d h -> op_tx E s d h op ->
  settled d (ss_path s) (sx_outputs d) ->
  (okb (p2pk_add_output_tokens E op data) <-> output_tokens_ok d h data (describe_cmd d 0x19 data)).
Proof.
  intros E s d h op data Hb W X S. destruct (op_union_tx _ _ _ _ _ X) as (t & Eu & Hli & Efs).
  assert (Est : op_state_of op = op_phase d h) by apply X.
  pose proof X as (_ & _ & _ & Ha & _).
  set (table := (sh_tokens h, am_table (op_amounts op))).
  assert (Call : forall pre o, current E s d h pre o ->
     (okb (bind (tx_call op (fun s => full_add_box_tokens op_tget (op_box_cb E) s data)) check_tx_finished) <->
      res_pass (fst (box_add_tokens (op_box_cb E) (gs (g_of E o) (ss_prefix s ++ out_base E d h pre) (op_amounts op, tx_output t)) data
                       (Some table))) = true)).
  { intros pre o C. rewrite (okb_tx_check op t _ Eu), Efs. unfold full_add_box_tokens.
    change (fl_state (fs_full (fs_of E s d h (op_amounts op, tx_output t)))) with (phase_of d h).
    rewrite (cu_phase _ _ _ _ _ _ C). rewrite (on_box_pass _ _ _ _ _ _ _ _ _ C). reflexivity. }
  split.
  - intro H. unfold p2pk_add_output_tokens in H. rewrite Est in H.
    assert (P : op_phase d h = OP_OUTPUTS_STARTED).
    { destruct (op_phase d h); try (exfalso; eapply okb_fail; exact H). reflexivity. }
    rewrite P in H. pose proof H as [op' Hop].
    assert (Hop' : p2pk_add_output_tokens E op data = Ok op') by (unfold p2pk_add_output_tokens; rewrite Est, P; exact Hop).
    destruct (add_out_tokens_ok E s d h op data op' Hb W X S Hop') as (W' & X' & _).
    destruct (current_ok E s d h W P) as (pre & o & C). pose proof (cu_outs _ _ _ _ _ _ C) as Ho.
    apply (Call pre o C) in H.
    destruct (box_add_tokens (op_box_cb E) (gs (g_of E o) (ss_prefix s ++ out_base E d h pre) (op_amounts op, tx_output t)) data (Some table))
      as [r x] eqn:Eb.
    cbn [fst] in H.
    destruct (g_tokens_ok _ _ _ _ _ _ _ _ (ow_g _ _ _ (cu_wf _ _ _ _ _ _ C)) Hb Eb H) as (G1 & G2 & G3 & G4 & G5 & _).
    pose proof (gw_toks _ (ow_g _ _ _ (cu_wf _ _ _ _ _ _ C))) as L.
    cbn [g_of g_toks g_ntok g_done tok_size] in G1, G2, G5, L. rewrite blen_map in G2, L.
    split; [exists o; split; [exists pre; exact Ho|]; split; [exact G1|lia]|].
    split; [apply entries_whole; [lia|]; eapply Forall_impl; [|exact G5]; intros e [He _]; exact He|].
    split; [eapply Forall_impl; [|exact G5]; intros e [_ He]; exact He|].
    assert (Ed : describe_cmd d 0x19 data = with_outs d (pre ++ [add_so_tokens (map (fun e => (num 0 4 e, num 4 8 e)) (entries 12 data)) o])).
    { apply (upd_outs d _ pre o Ho). }
    split.
    + set (o' := add_so_tokens (map (fun e => (num 0 4 e, num 4 8 e)) (entries 12 data)) o) in *. exists o'. rewrite Ed in *.
      split; [exists pre; reflexivity|].
      pose proof (w_out_wf _ _ _ W') as F1. pose proof (w_once _ _ _ W') as F2.
      change (sx_outputs (with_outs d (pre ++ [o']))) with (pre ++ [o']) in F1, F2.
      apply Forall_snoc in F1 as [_ F1]. apply Forall_snoc in F2 as [_ F2]. split.
      * pose proof (gw_toks _ (ow_g _ _ _ F1)) as L'. cbn [g_of g_toks g_ntok] in L'. rewrite blen_map in L'. exact L'.
      * apply once_spec. exact F2.
    + destruct X' as (_ & _ & _ & Ha' & _). apply (amounts_range _ _ Ha').
  - intros ((o & (pre & Ho) & Tc & Lt) & He & Hi & (o1 & (pre1 & Ho1) & Ln & Hr) & Hrange).
    assert (Oc : output_complete o = false).
    { unfold output_complete. replace (blen (so_tokens o) =? so_ntokens o) with false by (symmetry; apply N.eqb_neq; lia).
      rewrite andb_false_r. reflexivity. }
    destruct (cur_incomplete E s d h pre o W Ho Oc) as [P C]. unfold p2pk_add_output_tokens. rewrite Est, P. apply (Call pre o C).
    destruct (last_info_cur _ _ _ _ _ Hli Ho) as (i & Ei & Ri).
    set (l := map (fun e => (num 0 4 e, num 4 8 e)) (entries 12 data)).
    assert (Ed : describe_cmd d 0x19 data = with_outs d (pre ++ [add_so_tokens l o])) by (apply (upd_outs d _ pre o Ho)).
    rewrite Ed in *. change (sx_outputs (with_outs d (pre ++ [add_so_tokens l o]))) with (pre ++ [add_so_tokens l o]) in Ho1.
    apply app_inj_tail in Ho1 as [_ <-]. set (o' := add_so_tokens l o) in *.
    assert (F : Forall (fun e => length e = 12%nat) (entries 12 data)) by (apply entries_whole; [lia|exact He]).
    assert (F' : Forall (fun e => length e = 12%nat /\ num 0 4 e < sh_tokens h) (entries 12 data)).
    { rewrite Forall_forall in *. intros e Hin. split; auto. }
    pose proof (cu_tok _ _ _ _ _ _ C) as Tk. unfold tokens_in in Tk. apply N.eqb_eq in Tk.
    assert (Tab : exists ext, am_table (op_amounts op) = sx_tokens d ++ ext).
    { rewrite (ra_table _ _ Ha). unfold table_of. apply table_prefix. }
    destruct Tab as [ext Tab].
    assert (Hent : map (tok_entry (Some table)) (entries 12 data) = map (fun t => (nth (N.to_nat (fst t)) (sx_tokens d) [], snd t)) l).
    { unfold l. rewrite map_map. apply map_ext_in. intros e Hin. cbn [fst snd]. unfold tok_entry, table. f_equal. rewrite Tab.
      rewrite Forall_forall in Hi. specialize (Hi e Hin). unfold blen in Tk.
      rewrite app_nth1 by lia. apply nth_indep. lia. }
    assert (Tof : tokens_of d o' = tokens_of d o ++ map (tok_entry (Some table)) (entries 12 data)).
    { rewrite Hent. unfold tokens_of, o'. cbn [so_tokens add_so_tokens]. rewrite map_app. reflexivity. }
    change (tokens_of (with_outs d (pre ++ [o'])) o') with (tokens_of d o') in Hr.
    apply once_spec in Hr. rewrite Tof in Hr.
    change (so_tokens o') with (so_tokens o ++ l) in Ln. change (so_ntokens o') with (so_ntokens o) in Ln. rewrite blen_app in Ln.
    assert (Bl : blen l = blen (entries 12 data)) by (unfold l; apply blen_map).
    unfold box_add_tokens. change (bx_state (bs_box (gs (g_of E o) (ss_prefix s ++ out_base E d h pre) (op_amounts op, tx_output t))))
      with (g_box_state (g_of E o)). unfold g_box_state. cbn [g_of g_done g_toks g_ntok]. rewrite Tc, blen_map. cbn [negb].
    replace (blen (so_tokens o) =? so_ntokens o) with false by (symmetry; apply N.eqb_neq; lia). cbn [negb].
    fold (g_of E o).
    destruct (box_tokens_loop_succ E table (Datatypes.S (length data)) (gs (g_of E o) (ss_prefix s ++ out_base E d h pre) (op_amounts op, tx_output t)) data
      (balance d) (fun id => amount_of id (tokens_of d o)) i (tokens_of d o)) as [x' Hx]; try assumption.
    + lia.
    + exact (ra_tokens _ _ Ha).
    + cbn [gs bs_cb fst]. rewrite (ra_table _ _ Ha). exact (ri_tokens _ _ _ _ Ri).
    + rewrite Forall_map, Forall_forall. intros e Hin. cbn [gs bs_cb fst]. unfold tok_entry, table. cbn [fst].
      rewrite Forall_forall in Hi. specialize (Hi e Hin). apply nth_In. rewrite Tab, app_length. unfold blen in Tk. lia.
    + cbn [gs bs_box gstate bx_tokens_count g_of g_toks g_ntok]. rewrite blen_map. lia.
    + intro y. destruct Hrange as (_ & _ & Hbal). specialize (Hbal y). 
      rewrite <- (with_outs_same d), Ho. unfold balance in *. rewrite output_tokens_snoc in *. rewrite Tof in Hbal.
      rewrite !amount_of_app in *. change (input_tokens (with_outs d ?q)) with (input_tokens d) in *. lia.
    + reflexivity.
    + match goal with |- context [box_tokens_loop ?a1 ?a2 ?a3 ?a4 ?a5] =>
        replace (box_tokens_loop a1 a2 a3 a4 a5) with (R_OK, x') by (symmetry; exact Hx) end.
      destruct (box_tokens_loop_ok (op_box_cb E) (Some table) _ _ _ _ _ Hb Hx eq_refl) as (_ & _ & _ & Hcb & _).
      cbn [gs bs_cb bs_box gstate bx_type] in Hcb.
      assert (Hx' : exists i1, snd (bs_cb x') = Some i1 /\ notdone i1).
      { destruct (token_cbs_ok _ _ _ _ _ _ (fun id => amount_of id (tokens_of d o)) i Hcb (ra_tokens _ _ Ha) Ei) as (_ & _ & _ & _ & (i1 & Q5 & Q6 & _) & _).
        - cbn [fst]. rewrite (ra_table _ _ Ha). exact (ri_tokens _ _ _ _ Ri).
        - rewrite Forall_map, Forall_forall. intros e Hin. unfold tok_entry, table. cbn [snd].
          pose proof (entries_bytes_ok 12 data Hb) as Fb. rewrite Forall_forall in Fb. specialize (Fb e Hin).
          apply (num_bound 4 8) in Fb. exact Fb.
        - exists i1. split; [exact Q5|]. intro k. rewrite Q6. cbn [oi_type oi_set_tokens]. apply (info_notdone _ _ _ _ Ri Oc). }
      destruct Hx' as (i1 & Hi1 & Hn1).
      unfold box_tokens_done. destruct (_ =? 0); [|reflexivity]. destruct (_ =? 0); [|reflexivity].
      apply fin_pass with i1; assumption.
Qed.
