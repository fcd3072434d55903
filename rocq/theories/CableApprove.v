(** Approvals at the cable are both buttons on the card for them, whatever calls fail. *)
From Verif Require Import Lib Base Env UiFlow P2pkOp App SpecApdu SpecTrace SpecTx SpecSign SpecScreen Moves TraceScreen DispatchProofs
  SpecRaw Wire SpecWire WireProofs Restart Fault LowApp SpecFault LowProofs FaultProofs FaultCost
  Buttons SpecButtons ButtonProofs ButtonRun Whole SpecWhole WholeProofs WholeAll WalletRun FaultButtons SpecFaultRun ButtonFault HandCost FaultWhole SpecFaultWhole FaultWholeProofs SpecCableCost CableCost.
#[local] Arguments N.eqb : simpl never.
#[local] Arguments blen : simpl never.
#[local] Arguments num : simpl never.

Lemma does_last : forall E U w0 tr F m l x w, fdoes E U w0 (tr ++ [(F, m)]) (l ++ [x]) w -> exists w1 a os, x = (F, (understood a, os)) /\ mo_act m = a /\ fdoes E U w0 tr l w1 /\ stack_ok F /\ hmac_works F /\ act_ok a /\
  foperate E F U (wh_dev w1) (understood a) = (wh_dev w, os).
Proof.
  intros E U w0 tr F m l x w H. remember (tr ++ [(F, m)]) as t eqn:Et. remember (l ++ [x]) as k eqn:Ek. destruct H as [|t0 k0 w1 F0 a w2 out os H HF HM Ha Hs Nd Nu Hop].
  - exfalso. eapply app_cons_not_nil. exact Et.
  - apply app_inj_tail in Et as [<- Et], Ek as [<- <-]. assert (F0 = F) as -> by congruence. assert (m = mk_moment a (SpecWhole.packets out) (displayed (wh_dev w2))) as -> by congruence.
    exists w1, a, os. split; [reflexivity|]. split; [reflexivity|]. auto 10.
Qed.
Theorem approved_at_cable : forall E U mem page io key tr F m l F' a os w e outs, env_ok E -> blen io = 260 ->
  fdoes E U (power_on mem page io key) (tr ++ [(F, m)]) (l ++ [(F', (a, os))]) w -> sound os -> In (e, outs) os -> responds outs = true -> is_approval (e, outs) = true ->
  mo_act m = Presses BOTH /\ exists w1, fdoes E U (power_on mem page io key) tr l w1 /\
    ((e = UiApprove /\ displayed (wh_dev w1) = Some (C_APPROVE, 0%nat)) \/ (e = UiPathBoth /\ exists t x p, displayed (wh_dev w1) = Some (C_TEXT t x, p))).
Proof.
  intros E U mem page io key tr F m l F' a0 os w e outs Henv Hio D So Hin Rs Ap. destruct (does_last _ _ _ _ _ _ _ _ _ D) as (w1 & a & os' & K & Ea & D1 & HF & HM & Ha & Hop).
  assert (os' = os) as -> by congruence. clear K. pose proof (one_answer _ _ _ _ _ _ _ _ Hop Hin) as ->.
  destruct (replay _ _ _ _ _ _ Henv Hio _ _ (does_run _ _ _ _ _ _ D1)) as (trs & w' & lc & d & _ & (_ & O & _) & A & _).
  destruct (step_stands _ _ _ _ _ _ _ _ _ _ Henv O A HF HM (understood_ok _ Ha) Hop So) as (k & d1 & St & H1 & _).
  pose proof (operated_history _ _ _ _ _ O) as Hh0.
  assert (Nf : forall s, fault_status s -> is_approval (e, [OResp [] s]) = false).
  { intros s Hf. unfold is_approval. destruct e; try reflexivity; apply refused_accepted, fault_not_ok; exact Hf. }
  assert (Ue : by_user e = true) by (destruct e; (reflexivity || discriminate Ap)).
  destruct a as [p r|b]; cbn [understood] in *.
  - exfalso. pose proof (understood_ok (Arrives p r) Ha) as [Hu _]. cbn [foperate] in Hop. apply receive_by_shape in Hop as [(_ & K & _)|(outs' & _ & K & _)]; [discriminate K|].
    assert (e = command_of p r) as -> by congruence. congruence.
  - inversion St as [F0 b0 os0| | | |F0 b0 e0 s l2 Hc Hf Fl]; subst; [|exfalso; rewrite Nf in Ap by assumption; discriminate Ap].
    assert (An : answered (Press b, [(e, outs)]) = true) by (unfold answered; cbn [snd existsb]; rewrite Rs; reflexivity).
    assert (B : st_busy (dv_st d) = true).
    { pose proof H1 as H2. apply operated_last in H2 as (d2 & O2 & _ & Ho & _). rewrite (operated_det _ _ _ _ _ _ O O2) in *. cbn [operate] in Ho.
      destruct (press_single _ _ _ _ _ _ Ho) as [[K _]|(e1 & o1 & K & Hu & S1)]; [discriminate K|]. injection K as <- <-. destruct (st_busy (dv_st d)) eqn:B; [reflexivity|].
      pose proof (idle_user _ _ _ _ _ Henv Hh0 B Hu) as Iu. rewrite S1 in Iu. cbn [snd] in Iu. rewrite Iu in Rs. discriminate Rs. }
    destruct (screen_inv_holds E key _ _ Henv Hh0) as [_ Si]. rewrite B in Si. destruct Si as (q & pages & Sc & _).
    destruct (was_put _ _ _ _ _ _ _ _ _ Henv O Sc) as (k1 & k2 & Eq & P & Sl). pose proof O as O'. rewrite Eq in O', H1.
    pose proof (decides _ _ _ _ _ _ _ _ _ Henv _ _ _ P Sl O' H1 An) as Dc.
    pose proof (akin_displayed _ _ _ _ _ Henv Hh0 A) as Ed. unfold decision in Dc. first [rewrite Ed in Dc|rewrite <- Ed in Dc].
    destruct Dc as [(-> & Di & x & s & K)|[(_ & _ & K)|[(-> & _ & Di & x & s & K)|(_ & e1 & s & He & _ & _ & K)]]].
    + split; [exact Ea|]. exists w1. split; [exact D1|]. left. split; [congruence|exact Di].
    + exfalso. assert (e = UiReject) as -> by congruence. discriminate Ap.
    + split; [exact Ea|]. exists w1. split; [exact D1|]. right. split; [congruence|exact Di].
    + exfalso. assert (e = e1) as -> by congruence. destruct He as [-> | ->]; discriminate Ap.
Qed.
