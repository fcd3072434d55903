(** Every run of the device of SpecButtons happens on the whole device; what a signature costs. *)
From Verif Require Import Lib Env TxTable UiFlow P2pkOp App SpecVlq SpecTree SpecTx SpecTrace SpecApdu SpecScreen SpecSign SpecAmounts SpecRules SpecScript SpecNode SpecCost SpecDispatch
  Moves DispatchProofs CostProofs ReadApp SpecRaw Wire SpecWire WireProofs Restart SpecRestart
  Buttons SpecButtons ButtonProofs ButtonRun Whole SpecWhole WholeProofs.

Lemma done_ok : forall a, action_ok a -> act_ok (done_by a).
Proof.
  intros [e|b] H; [|exact I]. destruct H as [Hu He]. cbn [done_by]. pose proof (spoken_ok _ He) as K. destruct e; try discriminate Hu; exact K.
Qed.
Lemma done_understood : forall a, action_ok a -> understood (done_by a) = a.
Proof.
  intros [e|b] H; [|reflexivity]. destruct H as [Hu _]. pose proof (heard_spoken e) as K. cbn [done_by]. destruct e; try discriminate Hu; cbn [spoken understood heard] in *; f_equal; exact K.
Qed.
Lemma akin_at : forall d d', akin d d' -> dv_at d = dv_at d'. Proof. intros d d' []; reflexivity. Qed.
Lemma akin_near : forall d d', akin d d' -> near (dv_st d) (dv_st d'). Proof. intros d d' []; [constructor|assumption]. Qed.
Lemma near_sym : forall a b, near a b -> near b a. Proof. intros a b []; [constructor|constructor; assumption]. Qed.
Lemma akin_sym : forall a b, akin a b -> akin b a.
Proof. intros a b []; [constructor|]. constructor; [apply near_sym; assumption|]. rewrite <- (near_flow _ _ H). assumption. Qed.
Lemma near_busy : forall a b, near a b -> st_busy b = true -> a = b.
Proof. intros a b [] B; [reflexivity|discriminate B]. Qed.
Lemma idle_user : forall E key tr st e, env_ok E -> history E key tr st -> st_busy st = false -> by_user e = true -> snd (step E st e) = [].
Proof.
  intros E key tr st e Henv H B Hu. assert (Ho : on_screen tr = None) by (apply (StartAccept.idle_iff _ _ _ _ Henv H); exact B).
  destruct e; try discriminate Hu; try (rewrite (no_screen_buttons _ _ _ _ _ Henv H Ho) by (cbn [In]; tauto); reflexivity); cbn [step]; destruct (st_ui st); reflexivity.
Qed.
(** A device on left-over memory does what the fresh one does. *)
Lemma operate_akin_back : forall E U key tr d d' a d1' os, env_ok E -> history E key tr (dv_st d') -> akin d d' -> action_ok a ->
  operate E U d' a = (d1', os) -> sound os -> exists d1, operate E U d a = (d1, os) /\ akin d1 d1'.
Proof.
  intros E U key tr d d' a d1' os Henv H A Ha Ho So. pose proof (akin_near _ _ A) as Nr. destruct (st_busy (dv_st d')) eqn:B.
  { assert (Es : dv_st d = dv_st d') by (apply near_busy; assumption). assert (H' : history E key tr (dv_st d)) by (rewrite Es; exact H).
    destruct (operate_akin _ _ _ _ _ _ _ _ _ Henv H' (akin_sym _ _ A) Ha Ho So) as (d1 & Ho1 & A1). exists d1. split; [exact Ho1|apply akin_sym; exact A1]. }
  destruct (operate E U d a) as [d1 os1] eqn:Ho1.
  assert (So1 : sound os1).
  { destruct a as [e|b]; cbn [operate] in Ho, Ho1.
    - destruct (receive_shape _ _ _ _ _ Ho1) as [(_ & -> & _)|(outs1 & Na & -> & S1 & _)]; [constructor|].
      destruct (receive_shape _ _ _ _ _ Ho) as [(K & _)|(outs & _ & -> & S2 & _)]; [rewrite (akin_at _ _ A) in Na; contradiction|].
      destruct (step_near E _ _ e Nr) as [Eo _]. rewrite S1, S2 in Eo. cbn [snd] in Eo. subst outs1. exact So.
    - destruct (press_single _ _ _ _ _ _ Ho1) as [[-> _]|(e & outs & -> & Hu & S1)]; [constructor|]. destruct (step_near E _ _ e Nr) as [Eo _]. rewrite (idle_user _ _ _ _ _ Henv H B Hu), S1 in Eo.
      cbn [snd] in Eo. subst outs. constructor; [split; intros []|constructor]. }
  destruct (operate_akin _ _ _ _ _ _ _ _ _ Henv H A Ha Ho1 So1) as (d2 & Ho2 & A2). rewrite Ho in Ho2. assert (os1 = os) as -> by congruence. assert (d2 = d1') as -> by congruence. eauto.
Qed.

Theorem run_all : forall E U key l d mem page io, env_ok E -> operated E U key l d -> blen io = 260 ->
  exists tr w, goes_on E U (power_on mem page io key) tr w /\ map mo_act tr = map (fun x => done_by (fst x)) l /\ tells_of E U key tr l.
Proof.
  intros E U key l d mem page io Henv H Hi.
  assert (K : exists tr w, goes_on E U (power_on mem page io key) tr w /\ map mo_act tr = map (fun x => done_by (fst x)) l /\ map (fun m => understood (mo_act m)) tr = map fst l).
  { induction H as [|l d a d' os H IH Ha Ho So]; [eexists [], _; split; [constructor|split; reflexivity]|].
    destruct IH as (tr & w & G & A & T). destruct (run_told _ _ _ _ _ _ _ _ Henv Hi G) as (l0 & d0 & O0 & Ak & Lio & T0).
    assert (l0 = l) as -> by (eapply operated_unique; [exact O0|exact H|]; destruct T0 as [T0 _]; congruence). assert (d0 = d) as -> by (eapply operated_det; eassumption).
    destruct (operate_akin_back _ _ _ _ _ _ _ _ _ Henv (operated_history _ _ _ _ _ H) Ak Ha Ho So) as (d1 & Hw & _).
    destruct (whole_step E U w (done_by a)) as [w' lw] eqn:Hs. destruct (whole_operate _ _ _ _ _ _ (done_ok _ Ha) Lio Hs) as (os' & io0 & L0 & Ho' & Hsend).
    rewrite (done_understood _ Ha), Hw in Ho'. assert (os' = os) as -> by congruence.
    assert (Hop : operated E U key (l ++ [(a, os)]) d') by (econstructor; eassumption). pose proof (operated_history _ _ _ _ _ Hop) as Hh. rewrite happened_snoc in Hh.
    assert (Sz : forall b s, In (OResp b s) (concat (map snd os)) -> (length b + 2 <= 260)%nat).
    { destruct (operate_single _ _ _ _ _ _ Ho) as [-> |(e & outs & ->)]; [intros b s []|]. intros b s K. cbn [map snd concat] in K. rewrite app_nil_r in K. apply (proj2 (answers _ _ _ _ _ _ Henv Hh) b s K). }
    destruct (send_all_ok _ io0 L0 Sz) as (io' & L' & Q). rewrite Hsend in Q. assert (lw = map on_the_wire (concat (map snd os))) as -> by congruence.
    assert (No : forall o, In (Screen o) (map on_the_wire (concat (map snd os))) -> exists x, In x os /\ In o (snd x)).
    { intros o K. apply in_map_iff in K as (y & Ey & K). apply in_concat in K as (z & Hz & K). apply in_map_iff in Hz as (x & <- & Hx). exists x. split; [exact Hx|]. replace o with y; [exact K|]. destruct y; cbn [on_the_wire] in Ey; congruence. }
    eexists (tr ++ [mk_moment (done_by a) _ _]), w'. split; [eapply goes_on_more; [exact G|apply done_ok; exact Ha|exact Hs| |]|].
    - intros K. destruct (No _ K) as (x & Hx & Kx). exact (proj1 (proj1 (Forall_forall _ _) So _ Hx) Kx).
    - intros K. destruct (No _ K) as (x & Hx & Kx). exact (proj2 (proj1 (Forall_forall _ _) So _ Hx) Kx).
    - rewrite !map_app. cbn [map mo_act fst]. rewrite (done_understood _ Ha). split; f_equal; assumption. }
  destruct K as (tr & w & G & A & T). exists tr, w. do 2 (split; [assumption|]). destruct (run_told _ _ _ _ _ _ _ _ Henv Hi G) as (l' & d' & O' & _ & _ & T').
  assert (l' = l) as ->; [|exact T']. eapply operated_unique; [exact O'|exact H|]. destruct T' as [T' _]. congruence.
Qed.

Theorem cost_told : forall E U runs key a m b p l d G, env_ok E -> lifetime E U runs -> In (key, a ++ m :: b) runs -> operated E U key l d -> tells_of E U key a l ->
  In p (mo_sent m) -> length p = 58%nat -> skipn 56 p = [0x90; 0] -> no_forgery (happened l) -> readable_grammar G ->
  exists start body msg, session_of INS_SIGN (happened l) = Some (start, body) /\ signed_message E start msg (firstn 56 p) /\
    (Forall (fun x => output_complete x = true) (sx_outputs (description body)) -> readable G (node_tx E (description body)) ->
     forall t bs, readable G t -> n_bytes t = msg -> spends E t bs -> collision_free E key (happened l) bs ->
     exists amount fee roles, cost E (happened l) (start_network (start_data start)) body t bs amount fee roles).
Proof.
  intros E U runs key a m b p l d G Henv H K O T Hin Ln Sk Nf Hg. destruct (signature_told _ _ _ _ _ _ _ _ _ _ Henv H K O T Hin Ln Sk) as (_ & _ & _ & _ & _ & _ & _ & st & Hh).
  eapply (cost_holds E key (happened l) (UiApprove, [OResp (firstn 56 p) SW_OK]) st); try eassumption.
  unfold signature. cbn [snd]. unfold blen. rewrite firstn_length, Ln. reflexivity.
Qed.
