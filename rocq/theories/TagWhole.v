(** The whole device with failing cx_hmac_sha256, and its counterpart. *)
From Coq Require Import String.
From Verif Require Import Lib Env TxTable UiFlow P2pkOp App SpecText SpecTree SpecTrace SpecTx SpecApdu SpecScreen SpecPages SpecRequest SpecSign SpecStart
  Moves TraceScreen DispatchProofs SessionProofs SpecRaw Wire SpecWire WireProofs Restart Fault LowApp SpecFault LowProofs FaultProofs
  Buttons SpecButtons ButtonProofs ButtonRun ButtonOut Whole SpecWhole WholeProofs WholeAll SpecHost SpecWallet WalletProofs WalletRun WholeOut SpecGrant WholeGrant
  FaultButtons SpecFaultRun ButtonFault FaultWhole SpecFaultWhole FaultWholeProofs FaultGrant SpecTags TagBase TagProofs TagButtons SpecTagWhole.
#[local] Arguments N.eqb : simpl never.
#[local] Arguments N.ltb : simpl never.
#[local] Arguments N.leb : simpl never.
#[local] Arguments N.sub : simpl never.
#[local] Arguments blen : simpl never.
#[local] Arguments num : simpl never.

(** The other way round from [fwhole_operate]. *)
Lemma operate_fwhole : forall E F U w a d os, act_ok a -> blen (wh_io w) = 260 -> foperate E F U (wh_dev w) (understood a) = (d, os) ->
  (forall b s, In (OResp b s) (concat (map snd os)) -> (length b + 2 <= 260)%nat) ->
  exists w', fwhole_step E F U w a = (w', map on_the_wire (concat (map snd os))) /\ wh_dev w' = d /\ blen (wh_io w') = 260.
Proof.
  intros E F U w a d os Ha Hi Ho Sz. destruct (fwhole_step E F U w a) as [w' l] eqn:Hs. destruct (fwhole_operate _ _ _ _ _ _ _ Ha Hi Hs) as (os' & io0 & L0 & Ho' & Hsend).
  assert (os' = os) as -> by congruence. destruct (send_all_ok _ io0 L0 Sz) as (io' & L' & Q). rewrite Hsend in Q. exists w'.
  split; [congruence|]. split; [congruence|]. assert (wh_io w' = io') as -> by congruence. exact L'.
Qed.
Lemma stands_sizes : forall E U key l F a os k d, env_ok E -> stands (F, (a, os)) k -> operated E U key (l ++ k) d ->
  forall b s, In (OResp b s) (concat (map snd os)) -> (length b + 2 <= 260)%nat.
Proof.
  intros E U key l F a os k d Henv St O b s K. inversion St as [|F0 e|F0 e e' outs Se Sc|F0 e e' s0 s' Hc Hf Ns|F0 b0 e s0 l2 Hc Hf Fl]; subst.
  - eapply clean_sizes; [exact Henv|exact O|exact K].
  - destruct K.
  - eapply clean_sizes; [exact Henv|exact O|exact K].
  - cbn in K. destruct K as [K|[]]. assert (b = []) as -> by congruence. cbn [length]. lia.
  - cbn in K. destruct K as [K|[]]. assert (b = []) as -> by congruence. cbn [length]. lia.
Qed.
Lemma screens_sound : forall os io0 io lw, send_all (concat (map snd os)) io0 = (io, lw) -> ~ In (Screen ODiverge) lw -> ~ In (Screen OUb) lw -> sound (os : list obs).
Proof.
  intros os io0 io lw Hsend Nd Nu.
  assert (X : forall o, (forall b s, o <> OResp b s) -> ~ In (Screen o) lw -> forall x, In x os -> ~ In o (snd x)).
  { intros o No N0 x Hx K. apply N0. pose proof (send_screen o (concat (map snd os)) io0 No) as Q. rewrite Hsend in Q. cbn [snd] in Q. apply Q. apply in_concat. exists (snd x). split; [apply in_map; exact Hx|exact K]. }
  apply Forall_forall. intros x Hx. split; [apply (X ODiverge ltac:(discriminate) Nd _ Hx)|apply (X OUb ltac:(discriminate) Nu _ Hx)].
Qed.
Lemma sound_screens : forall (os : list obs) o, sound os -> (o = ODiverge \/ o = OUb) -> ~ In (Screen o) (map on_the_wire (concat (map snd os))).
Proof.
  intros os o So Ho K. apply in_map_iff in K as (x & Ex & K). assert (x = o) as ->. { destruct x; cbn in Ex; try discriminate Ex; congruence. }
  apply in_concat in K as (z & Hz & K). apply in_map_iff in Hz as (y & <- & Hy). destruct (proj1 (Forall_forall _ _) So _ Hy) as [S1 S2]. destruct Ho as [-> | ->]; [exact (S1 K)|exact (S2 K)].
Qed.
Lemma retagged_sizes : forall e outs e' outs', retagged (e, outs) (e', outs') ->
  (forall b s, In (OResp b s) outs' -> (length b + 2 <= 260)%nat) -> forall b s, In (OResp b s) outs -> (length b + 2 <= 260)%nat.
Proof.
  intros e outs e' outs' R Sz b s K. inversion R; subst.
  - destruct K as [K|[]]. assert (b = a ++ t) as -> by congruence. specialize (Sz _ _ (or_introl eq_refl)). rewrite app_length in *. lia.
  - eapply Sz. exact K.
  - destruct K as [K|[]]. assert (b = []) as -> by congruence. cbn [length]. lia.
Qed.

Section Twin.
  Variables (E : env) (U : ux) (mem : state) (page : text * text) (io key : bytes).
  Hypothesis Henv : env_ok E.
  Hypothesis Hio : blen io = 260.
  Notation w0 := (power_on mem page io key).

  Lemma twin : forall tr w, hgoes_on E U w0 tr w -> exists tr' w', Forall2 sent_right tr tr' /\ fgoes_on E U w0 tr' w' /\ wh_dev w' = wh_dev w /\ blen (wh_io w) = 260.
  Proof.
    intros tr w H. induction H as [|tr w F a w1 lw H IH HF HM Ha Hs Nd Nu].
    - exists [], w0. split; [constructor|]. split; [constructor|]. split; [reflexivity|exact Hio].
    - destruct IH as (tr' & w' & R & G & Ed & Lw). destruct (replay _ _ _ _ _ _ Henv Hio _ _ G) as (trs & wc & l & d & _ & S & A & Lw'). pose proof S as (_ & O & _).
      destruct (fwhole_operate _ _ _ _ _ _ _ Ha Lw Hs) as (os & io0 & L0 & Ho & Hsend). pose proof (screens_sound _ _ _ _ Hsend Nd Nu) as So.
      assert (Rg : st_range E (dv_st (wh_dev w))).
      { rewrite <- Ed. eapply near_range; [exact (ButtonFault.akin_near _ _ A)|]. eapply reachable_range; [exact Henv|]. exact (operated_history _ _ _ _ _ O). }
      destruct (operate_right _ _ _ _ _ _ _ Henv HF HM (understood_ok _ Ha) Rg Ho So) as (a' & os' & Hr & Ha' & Ho' & So'). rewrite <- Ed in Ho'.
      destruct (step_stands _ _ _ _ _ _ _ _ _ _ Henv O A (right_stack _ HF) (right_hmac F) Ha' Ho' So') as (k & d1 & St & H1 & _).
      pose proof (stands_sizes _ _ _ _ _ _ _ _ _ Henv St H1) as Sz'.
      assert (Sz : forall b s, In (OResp b s) (concat (map snd os)) -> (length b + 2 <= 260)%nat).
      { inversion Hr as [F0 x|F0 e outs e' outs' Hf Rt]; subst; [exact Sz'|]. cbn [map snd concat] in *. rewrite app_nil_r in *. eapply retagged_sizes; eassumption. }
      destruct (send_all_ok _ io0 L0 Sz) as (io' & L' & Q). rewrite Hsend in Q. assert (lw = map on_the_wire (concat (map snd os))) as -> by congruence. assert (Li : blen (wh_io w1) = 260) by (assert (wh_io w1 = io') as -> by congruence; exact L').
      assert (Fin : forall a2, act_ok a2 -> understood a2 = a' ->
        sent_right (F, mk_moment a (SpecWhole.packets (map on_the_wire (concat (map snd os)))) (displayed (wh_dev w1))) (tags_right F, mk_moment a2 (SpecWhole.packets (map on_the_wire (concat (map snd os')))) (displayed (wh_dev w1))) ->
        exists tr'0 w'0, Forall2 sent_right (tr ++ [(F, mk_moment a (SpecWhole.packets (map on_the_wire (concat (map snd os)))) (displayed (wh_dev w1)))]) tr'0 /\ fgoes_on E U w0 tr'0 w'0 /\ wh_dev w'0 = wh_dev w1 /\ blen (wh_io w1) = 260).
      { intros a2 Ok2 Un Sr. rewrite <- Un in Ho'. destruct (operate_fwhole _ _ _ _ _ _ _ Ok2 Lw' Ho' Sz') as (w2 & Hs2 & Ed2 & _). eexists _, w2.
        split; [apply Forall2_app; [exact R|constructor; [exact Sr|constructor]]|]. split; [|split; [exact Ed2|exact Li]]. rewrite <- Ed2.
        eapply fgoes_on_more; [exact G|apply right_stack; exact HF|apply right_hmac|exact Ok2|exact Hs2| |]; (apply sound_screens; [exact So'|auto]). }
      inversion Hr as [F0 x|F0 e outs e' outs' Hf Rt]; subst.
      + apply (Fin a Ha eq_refl). apply sr_same.
      + pose proof (done_understood _ Ha') as Du. pose proof (done_ok _ Ha') as Dk. destruct (done_by (Host e')) as [p' r'|b'] eqn:Db; [|discriminate Du].
        apply (Fin (Arrives p' r') Dk Du). cbn [map snd concat]. rewrite !app_nil_r. destruct a as [p r|b]; [|match goal with K : _ = understood _ |- _ => discriminate K | K : understood _ = _ |- _ => discriminate K end].
        apply sr_other; [exact Hf|]. cbn [understood] in *. assert (command_of p' r' = e') as -> by congruence. assert (command_of p r = e) as -> by congruence. exact Rt.
  Qed.
  Theorem cable_retagged : forall tr w, hgoes_on E U w0 tr w -> exists tr' w', Forall2 sent_right tr tr' /\ fgoes_on E U w0 tr' w' /\ wh_dev w' = wh_dev w.
  Proof. intros tr w H. destruct (twin _ _ H) as (tr' & w' & A & B & C & _). eauto. Qed.
End Twin.
