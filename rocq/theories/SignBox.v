(** Preservation of the signing invariant: the script, tokens and registers of an output. *)
From Verif Require Import Lib Gve CodecProofs Env SpecVlq SpecTree SpecTx SpecAmounts Bip32 ErgoTree TxTable TxBox TxInput
  TxFull Amounts OutputInfo InputFrame P2pkOp App TreeProofs BoxProofs AmountProofs SignInv SignInput SignData SignOutput.

#[local] Arguments N.eqb : simpl never.
#[local] Arguments N.ltb : simpl never.
#[local] Arguments N.leb : simpl never.
#[local] Arguments N.sub : simpl never.
#[local] Arguments blen : simpl never.
#[local] Arguments num : simpl never.
#[local] Arguments slice : simpl never.

(** ** The current output *)

Record current (E : env) (s : session) (d : s_tx) (h : s_head) (pre : list s_output) (o : s_output) : Prop := mk_cur {
  cu_outs : sx_outputs d = pre ++ [o];
  cu_in : inputs_in d h = true;
  cu_data : data_in d h = true;
  cu_tok : tokens_in d h = true;
  cu_out : outputs_in d h = false;
  cu_phase : phase_of d h = FL_OUTPUTS_STARTED;
  cu_union : union_of E d h = FU_BOX (gstate (g_of E o)) true;
  cu_bytes : ss_prefix s ++ tx_bytes E d h = (ss_prefix s ++ out_base E d h pre) ++ gbytes (g_of E o);
  cu_wf : out_wf E (sh_tokens h) o;
  cu_once : once (tokens_of d o) }.

Lemma tokens_in_outputs : forall E d h, wf E d h -> sx_outputs d <> [] ->
  inputs_in d h = true /\ data_in d h = true /\ tokens_in d h = true.
Proof.
  intros E d h W H. destruct (w_out_in _ _ _ W H) as [H1 H2]. split; [assumption|]. split; [assumption|].
  apply (w_in_tokens _ _ _ W). intro X. unfold inputs_in, done_inputs in H1. rewrite X, count_nil in H1.
  apply N.eqb_eq in H1. pose proof (w_inputs _ _ _ W). lia.
Qed.
Lemma current_ok : forall E s d h, wf E d h -> op_phase d h = OP_OUTPUTS_STARTED -> exists pre o, current E s d h pre o.
Proof.
  intros E s d h W H. apply op_phase_outputs in H as [Hne Ho].
  destruct (tokens_in_outputs _ _ _ W Hne) as (Hi & Hd & Ht).
  destruct (snoc_cases _ (sx_outputs d)) as [?|(pre & o & Eo)]; [contradiction|].
  exists pre, o. pose proof (w_out_wf _ _ _ W) as F1. pose proof (w_once _ _ _ W) as F2.
  rewrite Eo in F1, F2. apply Forall_snoc in F1 as [_ F1]. apply Forall_snoc in F2 as [_ F2].
  constructor; try assumption.
  - unfold phase_of. rewrite Ht, Hi, Hd, Ho. reflexivity.
  - unfold union_of. rewrite Eo, last_of_snoc. reflexivity.
  - rewrite <- (with_outs_same d) at 1. rewrite tx_bytes_outs, Eo, out_base_snoc, app_assoc by assumption. reflexivity.
Qed.

(** After a box call: the output countdown. *)
Lemma box_finished_state : forall g, g_box_state g = BX_FINISHED <-> g_finished g = true.
Proof.
  intro g. unfold g_box_state, g_finished. destruct (g_done g), (blen (g_toks g) =? g_ntok g), (blen (g_regs g) =? g_regs_len g);
    cbn; split; congruence.
Qed.
Lemma after_box : forall E s d h pre o o' (c : cbctx),
  wf E d h -> current E s d h pre o -> output_complete o = false ->
  let d' := with_outs d (pre ++ [o']) in
  let s1 := mk_fs (full_set_union (full_of E d h) (FU_BOX (gstate (g_of E o')) true))
                  ((ss_prefix s ++ out_base E d h pre) ++ gbytes (g_of E o')) c in
  (if output_complete o' then output_finished s1 else (R_OK, s1)) = (R_OK, fs_of E s d' h c).
Proof.
  intros E s d h pre o o' c W C Ho d' s1. pose proof C as [C1 C2 C3 C4 C5 C6 C7 C8 C9 C10].
  assert (Dn : done_outputs d = count_complete output_complete pre).
  { unfold done_outputs. rewrite C1, count_app, count_one, Ho. lia. }
  pose proof (w_out_le _ _ _ W _ _ C1) as Hlt. pose proof (w_outputs _ _ _ W) as Hmax.
  assert (Dn' : done_outputs d' = count_complete output_complete pre + if output_complete o' then 1 else 0) by apply done_outs.
  assert (Hb : (ss_prefix s ++ out_base E d h pre) ++ gbytes (g_of E o') = ss_prefix s ++ tx_bytes E d' h).
  { unfold d'. rewrite tx_bytes_outs, out_base_snoc, app_assoc by assumption. reflexivity. }
  assert (Ef : full_of E d' h = mk_full (if outputs_in d' h then FL_FINISHED else FL_OUTPUTS_STARTED) 0 0
          (sh_outputs h - done_outputs d') (sh_tokens h) (FU_BOX (gstate (g_of E o')) true)).
  { unfold d'. apply full_outs; assumption. }
  assert (Ef1 : fs_full s1 = mk_full FL_OUTPUTS_STARTED 0 0 (sh_outputs h - done_outputs d) (sh_tokens h) (FU_BOX (gstate (g_of E o')) true)).
  { unfold s1, full_set_union, full_of. cbn. rewrite C6. unfold inputs_in, data_in in C2, C3. apply N.eqb_eq in C2, C3.
    rewrite C2, C3, !N.sub_diag. reflexivity. }
  unfold fs_of. rewrite <- Hb, Ef. unfold outputs_in. destruct (output_complete o').
  - unfold output_finished, fs_with_full, fs_with_state, full_set_outputs, full_set_state. rewrite Ef1.
    cbn [fl_outputs_count fl_state fl_inputs_count fl_data_inputs_count fl_distinct fl_union fs_full fs_hash fs_cb].
    assert (En : u16 (sh_outputs h - done_outputs d + two16 - 1) = sh_outputs h - done_outputs d').
    { rewrite Dn, Dn'. unfold u16, two16 in *. symmetry. apply N.mod_unique with 1; lia. }
    rewrite En. destruct (N.eqb_spec (sh_outputs h - done_outputs d') 0) as [Ez|Ez].
    + replace (done_outputs d' =? sh_outputs h) with true by (symmetry; apply N.eqb_eq; lia). reflexivity.
    + replace (done_outputs d' =? sh_outputs h) with false by (symmetry; apply N.eqb_neq; lia). reflexivity.
  - replace (done_outputs d' =? sh_outputs h) with false by (symmetry; apply N.eqb_neq; lia).
    f_equal. destruct s1 eqn:X. unfold s1 in X. injection X as <- <- <-. cbn [fs_full] in Ef1. rewrite Ef1, Dn, Dn', N.add_0_r. reflexivity.
Qed.

Lemma on_box_ok : forall E s d h pre o (c : cbctx) call more r s',
  wf E d h -> current E s d h pre o ->
  on_box (op_box_cb E) (fs_of E s d h c) call more = (r, s') -> res_pass r = true ->
  exists r1 x, call (op_box_cb E) (gs (g_of E o) (ss_prefix s ++ out_base E d h pre) c) = (r1, x) /\
    res_pass r1 = true /\ (more = true -> r = r1) /\ fs_cb s' = bs_cb x /\
    forall o', x = gs (g_of E o') (ss_prefix s ++ out_base E d h pre) (bs_cb x) -> output_complete o = false ->
      (r1 = R_MORE_DATA -> output_complete o' = false) -> s' = fs_of E s (with_outs d (pre ++ [o'])) h (bs_cb x).
Proof.
  intros E s d h pre o c call more r s' W C H Hr. pose proof C as [C1 C2 C3 C4 C5 C6 C7 C8 C9 C10].
  unfold on_box in H. cbn [fs_of fs_full full_of fl_union fs_hash fs_cb] in H. rewrite C7, C8 in H.
  change (mk_bs (gstate (g_of E o)) ((ss_prefix s ++ out_base E d h pre) ++ gbytes (g_of E o)) c)
    with (gs (g_of E o) (ss_prefix s ++ out_base E d h pre) c) in H.
  destruct (call (op_box_cb E) (gs (g_of E o) (ss_prefix s ++ out_base E d h pre) c)) as [r1 x] eqn:Ec.
  exists r1, x. split; [reflexivity|].
  destruct (res_pass r1) eqn:Er1.
  2:{ destruct r1; try discriminate; bad H. }
  split; [reflexivity|].
  set (s1 := mk_fs (full_set_union (full_of E d h) (FU_BOX (bs_box x) true)) (bs_hash x) (bs_cb x)) in H.
  assert (Of : forall r s', output_finished s1 = (r, s') -> r = R_OK /\ fs_cb s' = bs_cb x).
  { intros r0 s0 X. unfold output_finished in X. destruct (_ =? 0); injection X as <- <-; split; reflexivity. }
  assert (H' : (r1 = R_MORE_DATA /\ more = true /\ r = R_MORE_DATA /\ s' = s1) \/
               ((more = true -> r1 = R_OK) /\ match bx_state (bs_box x) with BX_FINISHED => output_finished s1 | _ => (R_OK, s1) end = (r, s'))).
  { destruct r1; try discriminate.
    - right. auto.
    - destruct more.
      + left. injection H as <- <-. auto.
      + right. split; [discriminate|exact H]. }
  clear H. destruct H' as [(-> & -> & -> & ->)|(Hm & H)].
  - split; [reflexivity|]. split; [reflexivity|]. intros o' Hx Hoc Hmo.
    pose proof (after_box E s d h pre o o' (bs_cb x) W C Hoc) as A. cbv zeta in A. rewrite (Hmo eq_refl) in A.
    apply (f_equal snd) in A; cbn [snd] in A. rewrite <- A. unfold s1. rewrite Hx at 1 2. reflexivity.
  - assert (G : r = R_OK /\ fs_cb s' = bs_cb x).
    { destruct (bx_state (bs_box x)); try (injection H as <- <-; split; reflexivity). apply Of. assumption. }
    destruct G as [-> G]. split; [intro M; rewrite (Hm M); reflexivity|]. split; [assumption|].
    intros o' Hx Hoc _. pose proof (after_box E s d h pre o o' (bs_cb x) W C Hoc) as A. cbv zeta in A.
    assert (Es : s1 = mk_fs (full_set_union (full_of E d h) (FU_BOX (gstate (g_of E o')) true))
                  ((ss_prefix s ++ out_base E d h pre) ++ gbytes (g_of E o')) (bs_cb x)).
    { unfold s1. rewrite Hx at 1 2. reflexivity. }
    assert (Eb : bs_box x = gstate (g_of E o')) by (rewrite Hx; reflexivity).
    rewrite <- Es in A. rewrite Eb in H. cbn [gstate bx_state] in H.
    pose proof (box_finished_state (g_of E o')) as B. rewrite g_of_finished in B.
    destruct (output_complete o').
    + rewrite (proj2 B eq_refl) in H. rewrite A in H. injection H as <-. reflexivity.
    + apply (f_equal snd) in A; cbn [snd] in A. rewrite <- A. destruct (g_box_state (g_of E o')); try (injection H as <-; reflexivity).
      exfalso. destruct B as [B _]. specialize (B eq_refl). discriminate.
Qed.

(** ** Callbacks *)

Lemma type_cb_ok : forall E t v (c c1 : cbctx), type_cb (op_box_cb E) t v c c1 ->
  am_value (fst c) < two64 -> am_fee (fst c) < two64 -> v < two64 ->
  snd c1 = snd c /\
  match t with
  | BT_TREE => fst c1 = fst c
  | BT_CHANGE => v <= am_value (fst c) /\ fst c1 = am_set_value (fst c) (am_value (fst c) - v)
  | BT_FEE => v <= am_value (fst c) /\ am_fee (fst c) + v < two64 /\
              fst c1 = am_set_fee (am_set_value (fst c) (am_value (fst c) - v)) (am_fee (fst c) + v)
  end.
Proof.
  intros E t v c c1 H Hv Hf H64. unfold type_cb in H. cbn [op_box_cb on_type] in H. destruct H as (r & H & Hr).
  unfold p2pk_output_type_cb in H. destruct (amounts_add_output (fst c) t v) as [r1 a] eqn:Ea.
  injection H as <- <-. split; [reflexivity|]. cbn [fst]. exact (add_output_ok _ _ _ _ _ Hv Hf H64 Ea Hr).
Qed.
Lemma type_cb_snd : forall E t v (c c1 : cbctx), type_cb (op_box_cb E) t v c c1 -> snd c1 = snd c.
Proof.
  intros E t v c c1 H. unfold type_cb in H. cbn [op_box_cb on_type] in H. destruct H as (r & H & Hr).
  unfold p2pk_output_type_cb in H. destruct (amounts_add_output (fst c) t v) as [r1 a]. injection H as <- <-. reflexivity.
Qed.

(** The completion mark on the output information. *)
Definition finish_type (blake : bytes -> bytes) (t : out_type) : out_type :=
  match t with OT_SCRIPT x => OT_SCRIPT_DONE (blake x) | x => x end.
Definition oi_finish (E : env) (fin : bool) (i : output_info) : output_info :=
  if fin then
    mk_oi (oi_value i) (oi_tokens i) (if oi_tree_set i then finish_type (e_blake E) (oi_type i) else oi_type i) (oi_tree_set i) true
  else i.
Lemma fin_cb_ok : forall E fin t (c c1 : cbctx) i, fin_cb (op_box_cb E) fin t c c1 -> snd c = Some i ->
  fst c1 = fst c /\ snd c1 = Some (oi_finish E fin i).
Proof.
  intros E fin t c c1 i H Hi. unfold fin_cb in H. destruct fin; [|subst; auto].
  cbn [op_box_cb on_finished] in H. destruct H as (r & H & Hr). unfold p2pk_output_finished_cb in H. rewrite Hi in H.
  unfold output_info_set_box_finished, maybe_finished, output_info_is_finished in H.
  cbn [oi_set_box_finished oi_tree_set oi_box_finished oi_type] in H. rewrite andb_true_r in H. unfold oi_finish.
  destruct i as [iv it ity its ibf]. cbn in H |- *. destruct its.
  - destruct ity; injection H as <- <-; try discriminate; split; reflexivity.
  - injection H as <- <-. split; reflexivity.
Qed.

(** Tokens of an output. *)
Lemma token_cbs_ok : forall E t l (c c1 : cbctx) b f i,
  token_cbs (op_box_cb E) t l c c1 -> am_rel (fst c) b -> snd c = Some i ->
  oi_rel (oi_tokens i) (am_table (fst c)) f -> Forall (fun x => snd x < two64) l ->
  am_rel (fst c1) (fun x => (b x - Z.of_N (amount_of x l))%Z) /\
  am_fee (fst c1) = am_fee (fst c) /\ am_value (fst c1) = am_value (fst c) /\ am_table (fst c1) = am_table (fst c) /\
  (exists i1, snd c1 = Some i1 /\ i1 = oi_set_tokens i (oi_tokens i1) /\
     oi_rel (oi_tokens i1) (am_table (fst c)) (fun x => f x + amount_of x l)) /\
  forall l0, once l0 -> (forall x, amount_of x l0 = f x) -> once (l0 ++ l).
Proof.
  intros E t l. induction l as [|[id v] l IH]; intros c c1 b f i H R Hi O F.
  - cbn in H. subst c1. split; [eapply am_rel_ext; [|exact R]; intro x; cbn; lia|]. do 3 (split; [reflexivity|]).
    split; [|intros l0 H0 _; rewrite app_nil_r; assumption].
    exists i. split; [assumption|]. split; [destruct i; reflexivity|]. eapply oi_rel_ext; [|exact O]. intro x. cbn. lia.
  - cbn [token_cbs op_box_cb on_token] in H. destruct H as (c2 & (r & H & Hr) & H2).
    unfold p2pk_output_token_cb in H. rewrite Hi in H. inversion F as [|? ? F1 F2]; subst. cbn [snd] in F1.
    destruct (output_info_add_token i (am_table (fst c)) id v) as [r1 i1] eqn:E1.
    assert (r1 = R_OK) as ->.
    { unfold output_info_add_token in E1. destruct r1; try reflexivity; exfalso; try (injection H as <- <-; discriminate).
      repeat (case_match_in E1; try discriminate). }
    destruct (amounts_add_output_token (fst c) id v) as [r2 a2] eqn:E2. injection H as <- <-.
    assert (r2 = R_OK) as ->.
    { unfold amounts_add_output_token in E2. destruct r2; try discriminate; try reflexivity. exfalso.
      repeat (case_match_in E2; try discriminate). }
    destruct (oi_add_token_ok _ _ _ _ _ _ (ar_table _ _ R) O E1) as (Z0 & Hin & O' & Ei1).
    destruct (add_output_token_ok _ _ _ _ _ R F1 E2) as (R' & G1 & G2 & G3 & _).
    cbn [fst snd] in *.
    destruct (IH (a2, Some i1) c1 _ (updN f id v) i1 H2 R' eq_refl) as (Q1 & Q2 & Q3 & Q4 & (i2 & Q5 & Q6 & Q7) & Q8).
    + cbn [fst]. rewrite G3. exact O'.
    + assumption.
    + cbn [fst] in *. split.
      { eapply am_rel_ext; [|exact Q1]. intro x. cbv beta. unfold AmountProofs.upd. rewrite amount_of_cons.
        destruct (bytes_eqb id x); lia. }
      split; [congruence|]. split; [congruence|]. split; [congruence|]. split.
      { exists i2. split; [assumption|]. split; [rewrite Q6, Ei1; reflexivity|]. rewrite G3 in Q7.
        eapply oi_rel_ext; [|exact Q7]. intro x. cbv beta. unfold updN. rewrite amount_of_cons. lia. }
      intros l0 Ho0 Hf0. change ((id, v) :: l) with ([(id, v)] ++ l). rewrite app_assoc. apply Q8.
      * apply once_snoc; [assumption|]. cbn [fst]. rewrite Hf0. assumption.
      * intro x. rewrite amount_of_app, amount_of_cons, amount_of_nil, Hf0. unfold updN. lia.
Qed.

(** ** Back to the operation *)

Definition op_mid (E : env) (s : session) (d : s_tx) (h : s_head) (op : p2pk) : Prop :=
  op_fixed s op /\ op_state_of op = OP_OUTPUTS_STARTED /\ op_hash op = ss_prefix s ++ tx_bytes E d h /\
  amounts_rel d (op_amounts op) /\
  exists oi, last_info E d oi /\
    op_union_of op = OU_TX (mk_tx (full_of E d h) oi (last_approved (sx_outputs d))).

Lemma check_ok : forall E s d h op op', wf E d h -> sx_outputs d <> [] -> op_mid E s d h op ->
  check_tx_finished op = Ok op' -> op_tx E s d h op'.
Proof.
  intros E s d h op op' W Hne (H1 & H2 & H3 & H4 & oi & H5 & H6) H. unfold check_tx_finished in H. rewrite H6 in H.
  destruct (tokens_in_outputs _ _ _ W Hne) as (Ti & Td & Tt).
  cbn [tx_full full_of fl_state] in H. unfold phase_of in H. rewrite Ti, Td, Tt in H. cbn [negb] in H.
  assert (P : op_phase d h = if outputs_in d h then OP_TX_FINISHED else OP_OUTPUTS_STARTED).
  { unfold op_phase. destruct (sx_outputs d); [contradiction|reflexivity]. }
  destruct (outputs_in d h); cbn [negb] in H; injection H as <-.
  - split; [exact H1|]. split; [rewrite P; reflexivity|]. split; [exact H3|]. split; [exact H4|]. exists oi. auto.
  - split; [exact H1|]. split; [congruence|]. split; [exact H3|]. split; [exact H4|]. exists oi. auto.
Qed.

Lemma output_call_ok : forall op call op', output_call op call = Ok op' ->
  exists t i i', op_union_of op = OU_TX t /\ tx_output t = Some i /\ call i = (SW_OK, i') /\
    op' = op_set_union op (OU_TX (mk_tx (tx_full t) (Some i') (tx_last_approved t))).
Proof.
  intros op call op' H. unfold output_call in H. destruct (op_union_of op) as [|t|] eqn:Eu; try discriminate.
  destruct (tx_output t) as [i|] eqn:Ei; [|discriminate]. destruct (call i) as [sw i'] eqn:Ec. destruct sw; try discriminate.
  injection H as <-. exists t, i, i'. auto.
Qed.

(** The operation after the serializer call and before the output information is updated. *)
Lemma op_mid_put : forall E s d h op d' (c' : cbctx) t i',
  op_tx E s d h op -> op_state_of op = OP_OUTPUTS_STARTED -> op_union_of op = OU_TX t ->
  amounts_rel d' (fst c') -> last_info E d' (Some i') ->
  last_approved (sx_outputs d') = last_approved (sx_outputs d) ->
  op_mid E s d' h (op_set_union (op_put op t (fs_of E s d' h c'))
                     (OU_TX (mk_tx (full_of E d' h) (Some i') (tx_last_approved t)))).
Proof.
  intros E s d h op d' c' t i' (Hf & Hs & Hh & Ha & oi & Hi & Hu) Hst Ht Ha' Hi' Hl.
  rewrite Hu in Ht. injection Ht as <-.
  split; [exact Hf|]. split; [exact Hst|]. split; [reflexivity|]. split; [exact Ha'|].
  exists (Some i'). split; [exact Hi'|]. cbn. rewrite Hl. reflexivity.
Qed.

Lemma last_info_cur : forall E d i pre o, last_info E d i -> sx_outputs d = pre ++ [o] ->
  exists x, i = Some x /\ oinfo_rel E d o x.
Proof. intros E d i pre o H Ho. unfold last_info in H. rewrite Ho, last_of_snoc in H. exact H. Qed.
Lemma last_info_new : forall E d pre o x, oinfo_rel E (with_outs d (pre ++ [o])) o x ->
  last_info E (with_outs d (pre ++ [o])) (Some x).
Proof. intros. unfold last_info. cbn [with_outs on_outputs sx_outputs]. rewrite last_of_snoc. eauto. Qed.

(** Not shown yet: the output is incomplete. *)
Lemma settled_cur : forall d path pre o, sx_outputs d = pre ++ [o] -> settled d path (sx_outputs d) -> output_complete o = false ->
  settled d path pre /\ so_shown o = false /\ so_approved o = false.
Proof.
  intros d path pre o Ho S Hc. rewrite Ho in S. split; [apply (settled_app _ _ _ [o]); assumption|].
  apply settled_last in S as [S1 S2]. rewrite Hc in S1. cbn in S1. split; congruence.
Qed.

(** Common end of the output commands. *)
Lemma output_end : forall E s d h pre o o' (c' : cbctx) t op op' i',
  wf E d h -> current E s d h pre o -> op_tx E s d h op -> op_state_of op = OP_OUTPUTS_STARTED -> op_union_of op = OU_TX t ->
  settled d (ss_path s) (sx_outputs d) -> output_complete o = false ->
  out_wf E (sh_tokens h) o' -> once (tokens_of d o') -> so_shown o' = so_shown o -> so_approved o' = so_approved o ->
  amounts_rel (with_outs d (pre ++ [o'])) (fst c') -> oinfo_rel E (with_outs d (pre ++ [o'])) o' i' ->
  check_tx_finished (op_set_union (op_put op t (fs_of E s (with_outs d (pre ++ [o'])) h c'))
                     (OU_TX (mk_tx (full_of E (with_outs d (pre ++ [o'])) h) (Some i') (tx_last_approved t)))) = Ok op' ->
  let d' := with_outs d (pre ++ [o']) in
  wf E d' h /\ op_tx E s d' h op' /\ fresh d' (ss_path s) (sx_outputs d').
Proof.
  intros E s d h pre o o' c' t op op' i' W C T Hst Ht S Hoc Ow Once Hsh Hap Ha Hi H d'.
  pose proof C as [C1 C2 C3 C4 C5 C6 C7 C8 C9 C10].
  destruct (settled_cur _ _ _ _ C1 S Hoc) as (S1 & S2 & S3).
  assert (W' : wf E d' h).
  { pose proof (w_out_wf _ _ _ W) as F1. pose proof (w_once _ _ _ W) as F2. rewrite C1 in F1, F2.
    apply Forall_snoc in F1 as [F1 _]. apply Forall_snoc in F2 as [F2 _]. apply wf_outs; try assumption.
    - apply Forall_snoc. auto.
    - intros p x Hx. apply snoc_inj in Hx as [<- _]. apply (w_out_le _ _ _ W _ _ C1).
    - apply Forall_snoc. auto. }
  split; [assumption|]. split.
  - eapply check_ok; [exact W'| |eapply op_mid_put|exact H]; try eassumption.
    + apply snoc_not_nil.
    + apply last_info_new. assumption.
    + change (sx_outputs d') with (pre ++ [o']). rewrite C1, !last_approved_hidden by congruence. reflexivity.
  - apply fresh_outs; try assumption; congruence.
Qed.
