(** The whole device with failing calls looks like one without. *)
From Verif Require Import Lib Env TxTable UiFlow P2pkOp App SpecTree SpecTrace SpecTx SpecApdu SpecScreen SpecSign SpecStart
  Moves TraceScreen DispatchProofs SessionProofs SpecRaw Wire SpecWire WireProofs Restart Fault LowApp SpecFault LowProofs FaultProofs
  Buttons SpecButtons ButtonProofs ButtonRun ButtonOut Whole SpecWhole WholeProofs WholeAll SpecHost SpecWallet WalletProofs WalletRun WholeOut
  FaultButtons SpecFaultRun ButtonFault FaultWhole SpecFaultWhole.
From Verif Require PropWire PropButtons.
#[local] Arguments N.eqb : simpl never.
#[local] Arguments N.ltb : simpl never.
#[local] Arguments N.leb : simpl never.
#[local] Arguments N.sub : simpl never.
#[local] Arguments blen : simpl never.
#[local] Arguments num : simpl never.

Lemma fwhole_operate : forall E F U w a w' l, act_ok a -> blen (wh_io w) = 260 -> fwhole_step E F U w a = (w', l) ->
  exists os io0, blen io0 = 260 /\ foperate E F U (wh_dev w) (understood a) = (wh_dev w', os) /\ send_all (concat (map snd os)) io0 = (wh_io w', l).
Proof.
  intros E F U w a w' l Ha Hi H. unfold fwhole_step in H. destruct a as [packet r|b]; cbn [understood foperate act_ok] in *.
  - destruct (receive_by (fstep E F) (wh_dev w) (command_of packet r)) as [d os] eqn:R.
    set (io0 := match dv_at (wh_dev w) with P_OFF => wh_io w | _ => write_over packet (wh_io w) end) in *.
    exists os, io0. split.
    { unfold io0. destruct (dv_at (wh_dev w)); first [exact Hi|apply write_over_len; [exact Hi|apply Ha]]. }
    destruct (send_all (concat (map snd os)) io0) as [io1 l1]. injection H as <- <-. split; reflexivity.
  - destruct (press_by (fstep E F) U (wh_dev w) b) as [d os]. exists os, (wh_io w). split; [exact Hi|].
    destruct (send_all (concat (map snd os)) (wh_io w)) as [io1 l1]. injection H as <- <-. split; reflexivity.
Qed.
Lemma os_cases : forall (os : list (event * list output)) b s, In (OResp b s) (concat (map snd os)) -> exists x, In x os /\ In (OResp b s) (snd x).
Proof. intros os b s K. apply in_concat in K as (z & Hz & K). apply in_map_iff in Hz as (x & <- & Hx). eauto. Qed.
Lemma clean_sizes : forall E U key l a os d b s, env_ok E -> operated E U key (l ++ [(a, os)]) d -> In (OResp b s) (concat (map snd os)) -> (length b + 2 <= 260)%nat.
Proof.
  intros E U key l a os d b s Henv H K. pose proof (operated_history _ _ _ _ _ H) as Hh. rewrite happened_snoc in Hh. apply operated_last in H as (d0 & _ & _ & Ho & _).
  destruct (operate_single _ _ _ _ _ _ Ho) as [-> |(e & outs & ->)]; [destruct K|]. cbn [map snd concat] in K. rewrite app_nil_r in K. apply (proj2 (answers _ _ _ _ _ _ Henv Hh) b s K).
Qed.

Section Mirror.
  Variables (E : env) (U : ux) (mem : state) (page : text * text) (io key : bytes).
  Hypothesis Henv : env_ok E.
  Hypothesis Hio : blen io = 260.
  Notation w0 := (power_on mem page io key).
  Notation step_with := (in_step E U mem page io key).

  (** What the device of SpecButtons does, this one does. *)
  Lemma go_one : forall tr w l d a os d', step_with tr w l d -> act_ok a -> operated E U key (l ++ [(understood a, os)]) d' ->
    exists w', step_with (tr ++ [mk_moment a (answer_packets (understood a, os)) (displayed d')]) w' (l ++ [(understood a, os)]) d'.
  Proof.
    intros tr w l d a os d' S Ha H. pose proof S as (_ & O & A & _). pose proof H as H1. apply operated_last in H1 as (d0 & O0 & Ha' & Ho & So).
    assert (d0 = d) as -> by (eapply operated_det; eassumption).
    destruct (operate_akin_back _ _ _ _ _ _ _ _ _ Henv (operated_history _ _ _ _ _ O) A Ha' Ho So) as (d1 & Hw & _).
    destruct (advance E U mem page io key Henv Hio _ _ _ _ _ _ _ S Ha Hw So) as (w' & d2 & Ew & S2). pose proof S2 as (_ & O2 & A2 & _).
    assert (d2 = d') as -> by (eapply operated_det; eassumption). exists w'.
    rewrite <- (akin_displayed _ _ _ _ _ Henv (operated_history _ _ _ _ _ O2) A2), Ew. exact S2.
  Qed.
  Lemma silent_packets : forall a os, answered (a, os) = false -> answer_packets (a, os) = [].
  Proof.
    intros a os. unfold answered, answer_packets. cbn [snd]. induction os as [|[e outs] os IH]; intros S; [reflexivity|]. cbn [existsb snd] in S. apply Bool.orb_false_iff in S as [S1 S2].
    cbn [map snd concat]. rewrite map_app. unfold SpecWhole.packets in *. rewrite flat_map_app, IH by exact S2. rewrite app_nil_r. clear - S1.
    induction outs as [|o outs IH]; [reflexivity|]. unfold responds in *. cbn [existsb] in S1. apply Bool.orb_false_iff in S1 as [S1 S2]. cbn [map flat_map]. rewrite IH by exact S2. destruct o; cbn in *; (reflexivity || discriminate).
  Qed.
  Lemma go_singles : forall l2 tr w l d d', step_with tr w l d -> operated E U key (l ++ l2) d' ->
    Forall (fun x => exists b, fst x = Press b /\ b <> BOTH /\ answered x = false) l2 ->
    exists tr2 w', step_with (tr ++ tr2) w' (l ++ l2) d' /\ Forall (fun m => (exists b, mo_act m = Presses b /\ b <> BOTH) /\ mo_sent m = []) tr2.
  Proof.
    induction l2 as [|[a os] l2 IH]; intros tr w l d d' S H Fa.
    - exists [], w. rewrite !app_nil_r in *. pose proof S as (_ & O & _). assert (d' = d) as -> by (eapply operated_det; eassumption). split; [exact S|constructor].
    - pose proof (Forall_inv Fa) as (b & Ea & Nb & An). cbn [fst] in Ea. subst a. apply Forall_inv_tail in Fa.
      change ((Press b, os) :: l2) with ([(Press b, os)] ++ l2) in H |- *. rewrite (app_assoc l) in H |- *. destruct (operated_prefix _ _ _ _ _ _ H) as (d1 & H1).
      destruct (go_one _ _ _ _ (Presses b) os d1 S I H1) as (w1 & S1). cbn [understood] in S1.
      destruct (IH _ _ _ _ _ S1 H Fa) as (tr2 & w' & S2 & F2). exists (mk_moment (Presses b) (answer_packets (Press b, os)) (displayed d1) :: tr2), w'.
      split; [rewrite <- app_assoc in S2; exact S2|]. constructor; [|exact F2]. cbn [mo_act mo_sent]. split; [eauto|apply silent_packets; exact An].
  Qed.

  Lemma replay : forall tr w, fgoes_on E U w0 tr w -> exists trs w' l d, Forall2 replays tr trs /\ step_with (concat trs) w' l d /\ akin (wh_dev w) d /\ blen (wh_io w) = 260.
  Proof.
    intros tr w H. induction H as [|tr w F a w1 lw H IH HF HM Ha Hs Nd Nu].
    - exists [], w0, [], (switched_on key). split; [constructor|].
      assert (A : akin (wh_dev w0) (switched_on key)) by (unfold power_on, switched_on; cbn [wh_dev]; apply akin_differ; [apply near_idle; left; reflexivity|right; left; reflexivity]).
      split; [|split; [exact A|exact Hio]]. split; [constructor|]. split; [constructor|]. split; [exact A|]. split; [reflexivity|]. split; [reflexivity|]. intros [|n] m K; discriminate K.
    - destruct IH as (trs & w' & l & d & Fr & S & A & Lio). destruct (fwhole_operate _ _ _ _ _ _ _ Ha Lio Hs) as (os & io0 & L0 & Ho & Hsend). pose proof S as (_ & O & _).
      assert (So : sound os).
      { assert (X : forall o, (forall b s, o <> OResp b s) -> ~ In (Screen o) lw -> forall x, In x os -> ~ In o (snd x)).
        { intros o No N0 x Hx K. apply N0. pose proof (send_screen o (concat (map snd os)) io0 No) as Q. rewrite Hsend in Q. cbn [snd] in Q. apply Q. apply in_concat. exists (snd x). split; [apply in_map; exact Hx|exact K]. }
        apply Forall_forall. intros x Hx. split; [apply (X ODiverge ltac:(discriminate) Nd _ Hx)|apply (X OUb ltac:(discriminate) Nu _ Hx)]. }
      destruct (step_stands _ _ _ _ _ _ _ _ _ _ Henv O A HF HM (understood_ok _ Ha) Ho So) as (k & d1 & St & H1 & A1).
      assert (Out : (forall b s, In (OResp b s) (concat (map snd os)) -> (length b + 2 <= 260)%nat) ->
        forall ms w2 ls, replays (F, mk_moment a (answer_packets (understood a, os)) (displayed d1)) ms -> step_with (concat trs ++ ms) w2 ls d1 ->
        exists trs w' l d, Forall2 replays (tr ++ [(F, mk_moment a (SpecWhole.packets lw) (displayed (wh_dev w1)))]) trs /\ step_with (concat trs) w' l d /\ akin (wh_dev w1) d /\ blen (wh_io w1) = 260).
      { intros Sz ms w2 ls R S2. destruct (send_all_ok _ io0 L0 Sz) as (io' & L' & Q). rewrite Hsend in Q. assert (wh_io w1 = io') as -> by congruence.
        assert (lw = map on_the_wire (concat (map snd os))) as -> by congruence. exists (trs ++ [ms]), w2, ls, d1. split.
        - apply Forall2_app; [exact Fr|]. constructor; [|constructor]. rewrite (akin_displayed _ _ _ _ _ Henv (operated_history _ _ _ _ _ H1) A1). exact R.
        - split; [rewrite concat_app; cbn [concat]; rewrite app_nil_r; exact S2|]. split; [exact A1|exact L']. }
      assert (Same : k = [(understood a, os)] -> exists trs w' l d, Forall2 replays (tr ++ [(F, mk_moment a (SpecWhole.packets lw) (displayed (wh_dev w1)))]) trs /\ step_with (concat trs) w' l d /\ akin (wh_dev w1) d /\ blen (wh_io w1) = 260).
      { intros ->. destruct (go_one _ _ _ _ a os d1 S Ha H1) as (w2 & S2). eapply Out; [|apply rp_same|exact S2]. intros b s. eapply clean_sizes; [exact Henv|exact H1]. }
      destruct a as [p r|b]; cbn [understood] in *.
      + inversion St as [|F0 e|F0 e e' outs Se Sc|F0 e e' s s' Hc Hf Ns|]; subst; try (apply Same; reflexivity).
        * destruct Sc as [-> |Sc]; [apply Same; reflexivity|].
          pose proof H1 as H2. apply operated_last in H2 as (_ & _ & Ha' & _). pose proof (done_understood _ Ha') as Du. pose proof (done_ok _ Ha') as Dk.
          destruct (done_by (Host e')) as [p' r'|b'] eqn:Db; [|discriminate Du]. cbn [understood] in Du. assert (Ee : command_of p' r' = e') by congruence.
          rewrite <- Du in H1. destruct (go_one _ _ _ _ (Arrives p' r') _ d1 S Dk H1) as (w2 & S2). eapply Out; [| |exact S2].
          -- intros b s. apply (clean_sizes _ _ _ _ _ _ _ b s Henv H1).
          -- cbn [understood]. apply rp_drawn; [exact Sc|]. rewrite Ee. exact Se.
        * pose proof H1 as H2. apply operated_last in H2 as (_ & _ & Ha' & _). pose proof (done_understood _ Ha') as Du. pose proof (done_ok _ Ha') as Dk.
          destruct (done_by (Host e')) as [p' r'|b'] eqn:Db; [|discriminate Du]. cbn [understood] in Du.
          rewrite <- Du in H1. destruct (go_one _ _ _ _ (Arrives p' r') _ d1 S Dk H1) as (w2 & S2). eapply Out; [| |exact S2].
          -- intros b0 s0 K. cbn in K. destruct K as [K|[]]. assert (b0 = []) as -> by congruence. cbn [length]. lia.
          -- apply rp_refused; assumption.
      + inversion St as [F0 b0 os0| | | |F0 b0 e s l2 Hc Hf Fl]; subst; [apply Same; reflexivity|].
        pose proof H1 as H2. rewrite (app_assoc l) in H2. destruct (operated_prefix _ _ _ _ _ _ H2) as (d2 & H3).
        destruct (go_singles _ _ _ _ _ _ S H3 Fl) as (tr2 & w2 & S2 & F2). destruct (go_one _ _ _ _ (Presses BOTH) _ d1 S2 I H2) as (w3 & S3).
        eapply Out; [| |rewrite <- app_assoc in S3; exact S3].
        -- intros b0 s0 K. cbn in K. destruct K as [K|[]]. assert (b0 = []) as -> by congruence. cbn [length]. lia.
        -- apply rp_out; assumption.
  Qed.
  Theorem replayed : forall tr w, fgoes_on E U w0 tr w -> exists trs w', Forall2 replays tr trs /\ goes_on E U w0 (concat trs) w'.
  Proof. intros tr w H. destruct (replay _ _ H) as (trs & w' & l & d & Fr & (G & _) & _). eauto. Qed.
End Mirror.

(** ** Back from the run without failures *)
Lemma replays_last : forall x ms, replays x ms -> exists ms0 m, ms = ms0 ++ [m] /\ mo_shown m = mo_shown (snd x).
Proof. intros x ms H. destruct H; [eexists [], _|eexists [], _|eexists [], _|eexists ms, _]; (split; [reflexivity|reflexivity]). Qed.
Lemma shown_same : forall tr trs k x, Forall2 replays tr trs -> (shown_last (map snd tr ++ k) x <-> shown_last (concat trs ++ k) x).
Proof.
  intros tr trs k x H. destruct k as [|m k _] using rev_ind.
  - rewrite !app_nil_r. destruct tr as [|y tr _] using rev_ind; [inversion H; subst; reflexivity|].
    apply Forall2_app_inv_l in H as (t1 & t2 & _ & H2 & ->). inversion H2 as [|? ms ? ? R N0]; subst. inversion N0; subst. destruct (replays_last _ _ R) as (ms0 & m & -> & Em).
    rewrite map_app, concat_app. cbn [map concat]. rewrite app_nil_r, (app_assoc (concat t1)). split; intros (t & m' & Eq & Sh); apply app_inj_tail in Eq as [_ <-]; eexists _, _; (split; [reflexivity|congruence]).
  - rewrite !app_assoc. split; intros (t & m' & Eq & Sh); apply app_inj_tail in Eq as [_ <-]; eexists _, _; (split; [reflexivity|exact Sh]).
Qed.
Definition quiet (x : moment) : Prop := match mo_act x with Presses _ => mo_sent x = [] | Arrives _ _ => True end.
Lemma quiet_back : forall tr trs, Forall2 replays tr trs -> Forall quiet (concat trs) -> Forall quiet (map snd tr) /\ map mo_shown (concat trs) = map mo_shown (map snd tr).
Proof.
  intros tr trs H. induction H as [|x ms tr trs R H IH]; intros Q; [split; constructor|]. cbn [concat] in Q. apply Forall_app in Q as [Qm Q]. destruct (IH Q) as [I1 I2]. cbn [map concat]. rewrite map_app, I2.
  destruct R as [F m|F p r p' r' sent shown|F p r p' r' s s' shown|F b s ms shown Hc Hf Hm]; cbn [snd map app].
  - split; [constructor; [apply Forall_inv in Qm; exact Qm|exact I1]|reflexivity].
  - split; [constructor; [exact I|exact I1]|reflexivity].
  - split; [constructor; [exact I|exact I1]|reflexivity].
  - exfalso. apply Forall_app in Qm as [_ Qm]. apply Forall_inv in Qm. discriminate Qm.
Qed.
Lemma was_shown_back : forall t t' c p, map mo_shown t = map mo_shown t' -> was_shown t c p -> was_shown t' c p.
Proof.
  intros t t' c p Eq (m & Hin & Sh). apply (in_map mo_shown) in Hin. rewrite Eq in Hin. apply in_map_iff in Hin as (m' & Em & Hin). exists m'. split; [exact Hin|congruence].
Qed.
Lemma cut_moment : forall tr trs t1 p r t2 shown, Forall2 replays tr trs -> concat trs = t1 ++ mk_moment (Arrives p r) [] shown :: t2 ->
  exists a F p' r' b bs, tr = a ++ (F, mk_moment (Arrives p' r') [] shown) :: b /\ same_event (command_of p' r') (command_of p r) /\ Forall2 replays b bs /\ concat bs = t2.
Proof.
  intros tr trs t1 p r t2 shown H. revert t1. induction H as [|x ms tr trs R H IH]; intros t1 Eq; [exfalso; eapply app_cons_not_nil; exact Eq|]. cbn [concat] in Eq.
  assert (Rec : forall t0, concat trs = t0 ++ mk_moment (Arrives p r) [] shown :: t2 ->
    exists a F p' r' b bs, x :: tr = a ++ (F, mk_moment (Arrives p' r') [] shown) :: b /\ same_event (command_of p' r') (command_of p r) /\ Forall2 replays b bs /\ concat bs = t2).
  { intros t0 K. destruct (IH _ K) as (a & F & p' & r' & b & bs & -> & Se & Fb & Ec). exists (x :: a), F, p', r', b, bs. split; [reflexivity|]. auto. }
  assert (Here : forall m, ms = [m] -> (m = mk_moment (Arrives p r) [] shown -> exists F p' r', x = (F, mk_moment (Arrives p' r') [] shown) /\ same_event (command_of p' r') (command_of p r)) ->
    exists a F p' r' b bs, x :: tr = a ++ (F, mk_moment (Arrives p' r') [] shown) :: b /\ same_event (command_of p' r') (command_of p r) /\ Forall2 replays b bs /\ concat bs = t2).
  { intros m -> Hm. destruct t1 as [|z t1]; cbn [app] in Eq.
    - assert (m = mk_moment (Arrives p r) [] shown) as Em by congruence. destruct (Hm Em) as (F & p' & r' & -> & Se). exists [], F, p', r', tr, trs. split; [reflexivity|]. split; [exact Se|]. split; [exact H|congruence].
    - apply (Rec t1). congruence. }
  destruct R as [F m|F q1 r1 q2 r2 sent sh Hc Se|F q1 r1 q2 r2 s s' sh|F b s ms sh Hc Hf Hm].
  - apply (Here m eq_refl). intros ->. exists F, p, r. split; [reflexivity|constructor].
  - apply (Here _ eq_refl). intros K. injection K as -> -> -> ->. exists F, q1, r1. split; [reflexivity|exact Se].
  - apply (Here _ eq_refl). intros K. discriminate K.
  - assert (Fh : Forall (fun m => exists b, mo_act m = Presses b) (ms ++ [mk_moment (Presses BOTH) [[0x69; 0x85]] sh])).
    { apply Forall_app. split; [|constructor; [eexists; reflexivity|constructor]]. eapply Forall_impl; [|exact Hm]. intros m ((b0 & K & _) & _). eauto. }
    clear Here. generalize dependent (ms ++ [mk_moment (Presses BOTH) [[0x69; 0x85]] sh]). intros y Eq Fy.
    assert (exists t0, concat trs = t0 ++ mk_moment (Arrives p r) [] shown :: t2) as (t0 & K); [|exact (Rec _ K)].
    clear - Eq Fy. revert t1 Eq. induction Fy as [|z y (b0 & Ez) Fy IH]; intros t1 Eq; [exists t1; exact Eq|]. destruct t1 as [|z' t1]; cbn [app] in Eq; [exfalso; injection Eq as -> _; discriminate Ez|].
    injection Eq as _ Eq. exact (IH _ Eq).
Qed.
Lemma read_back : forall U tr trs q f pages, Forall2 replays tr trs -> read_all U (concat trs) q f pages -> exists q', same_event q' q /\ read_all U (map snd tr) q' f pages.
Proof.
  intros U tr trs q f pages H (t1 & [ac sent sh] & t2 & Eq & Un & Se & Qu & Rd). cbn [mo_act mo_sent] in *. subst sent. destruct ac as [p r|b]; [|discriminate Un]. cbn [understood] in Un.
  destruct (cut_moment _ _ _ _ _ _ _ H Eq) as (a & F & p' & r' & b & bs & -> & Sv & Fb & <-). destruct (quiet_back _ _ Fb Qu) as [Q2 Em].
  exists (command_of p' r'). split; [replace q with (command_of p r) by congruence; exact Sv|].
  exists (map snd a), (mk_moment (Arrives p' r') [] sh), (map snd b). split; [rewrite map_app; reflexivity|]. split; [reflexivity|]. split; [reflexivity|]. split; [exact Q2|].
  assert (Em' : map mo_shown (mk_moment (Arrives p r) [] sh :: concat bs) = map mo_shown (mk_moment (Arrives p' r') [] sh :: map snd b)) by (cbn [map mo_shown]; f_equal; exact Em).
  destruct Rd as [Rd|Rd]; [left; eapply was_shown_back; eassumption|right]. intros oc Ho. destruct (Rd oc Ho) as (c & -> & [-> |K]); eexists; (split; [reflexivity|]); [left; reflexivity|].
  right. intros p0 L. eapply was_shown_back; [exact Em'|]. apply K, L.
Qed.

Theorem signed_at_cable : forall E U mem page io key a F m w p, env_ok E -> blen io = 260 -> fgoes_on E U (power_on mem page io key) (a ++ [(F, m)]) w ->
  In p (mo_sent m) -> length p = 58%nat -> skipn 56 p = [0x90; 0] ->
  mo_act m = Presses BOTH /\ shown_last (map snd a) (Some (C_APPROVE, 0%nat)) /\
  exists trs w' l d q q' f pages, Forall2 replays a trs /\ goes_on E U (power_on mem page io key) (concat trs ++ [m]) w' /\
    operated E U key l d /\ tells_of E U key (concat trs) l /\ on_screen (happened l) = Some (q, U_STX_TX, f, pages) /\ same_event q' q /\ read_all U (map snd a) q' f pages.
Proof.
  intros E U mem page io key a F m w p Henv Hio H Hin Ln Sk. destruct (replay _ _ _ _ _ _ Henv Hio _ _ H) as (trs & w' & l & d & Fr & S & _).
  apply Forall2_app_inv_l in Fr as (t1 & t2 & F1 & F2 & ->). inversion F2 as [|? ms ? ? R N0]; subst. inversion N0; subst. clear F2 N0. rewrite concat_app in S. cbn [concat] in S. rewrite app_nil_r in S.
  destruct S as (G & O & _ & T). 
  assert (Told : forall m', ms = [m'] -> In p (mo_sent m') -> mo_act m' = Presses BOTH /\ shown_last (concat t1) (Some (C_APPROVE, 0%nat)) /\
    exists l d q f pages, operated E U key l d /\ tells_of E U key (concat t1) l /\ on_screen (happened l) = Some (q, U_STX_TX, f, pages) /\ read_all U (concat t1) q f pages).
  { intros m' -> Hin'. assert (Lf : lifetime E U ([] ++ [(key, concat t1 ++ [m'])])) by (eapply lifetime_run; [constructor|exact Hio|exact G]).
    destruct (begins_told _ _ _ _ _ _ Henv Lf (or_introl eq_refl)) as (l1 & d1 & O1 & T1 & _).
    destruct (signature_told _ _ _ _ _ _ _ _ _ _ Henv Lf (or_introl eq_refl) O1 T1 Hin' Ln Sk) as (E1 & E2 & q & f & pages & E3 & E4 & _). split; [exact E1|]. split; [exact E2|]. exists l1, d1, q, f, pages. auto. }
  inversion R as [F0 m0|F0 q1 r1 q2 r2 sent sh Hc Se|F0 q1 r1 q2 r2 s s' sh|F0 b s ms0 sh]; subst.
  - destruct (Told m eq_refl Hin) as (E1 & E2 & l1 & d1 & q & f & pages & O1 & T1 & E3 & E4). split; [exact E1|].
    split; [pose proof (shown_same _ _ [] (Some (C_APPROVE, 0%nat)) F1) as K; rewrite !app_nil_r in K; apply K; exact E2|].
    destruct (read_back _ _ _ _ _ _ F1 E4) as (q' & Se & Rd). exists t1, w', l1, d1, q, q', f, pages. auto 10.
  - exfalso. destruct (Told _ eq_refl Hin) as (K & _). discriminate K.
  - exfalso. destruct Hin as [<-|[]]. discriminate Ln.
  - exfalso. destruct Hin as [<-|[]]. discriminate Ln.
Qed.

(** ** Serving a wallet afterwards *)
Lemma goes_on_det : forall E U w0 tr w w', goes_on E U w0 tr w -> goes_on E U w0 tr w' -> w' = w.
Proof.
  intros E U w0 tr w w' H. revert w'. induction H as [|tr w a w1 l H IH Ha Hs Nd Nu]; intros w' H2.
  - inversion H2 as [|? ? ? ? ? ? ? ? ? ? K]; [reflexivity|]. exfalso. eapply app_cons_not_nil. symmetry. exact K.
  - inversion H2 as [K|tr' w2 a' w3 l' H' Ha' Hs' Nd' Nu' K]; [exfalso; eapply app_cons_not_nil; exact K|]. apply app_inj_tail in K as [-> K]. rewrite (IH _ H') in Hs'. assert (a' = a) as -> by congruence. congruence.
Qed.
Lemma dead_whole : forall E U key w l d, env_ok E -> operated E U key l d -> akin w d -> dead E U w -> (exists i p, dv_at d = P_DEAD i p) \/ dv_at d = P_OFF.
Proof.
  intros E U key w l d Henv O A D.
  assert (Dd : dull E U d).
  { destruct (operate_akin E U key (happened l) w d (Press RIGHT) w [] Henv (operated_history _ _ _ _ _ O) A I (D RIGHT) (Forall_nil _)) as (d1 & P & A1).
    exists d1. split; [exact P|]. split; [rewrite <- (akin_at _ _ A1); exact (akin_at _ _ A)|]. intros B.
    pose proof (WholeAll.near_busy _ _ (akin_near _ _ A) B) as E1. rewrite <- E1 in B. pose proof (near_sym _ _ (akin_near _ _ A1)) as K. rewrite (WholeAll.near_busy _ _ K B). exact E1. }
  destruct (on_screen (happened l)) as [[[[q k] f] pages]|] eqn:Q.
  - destruct (was_put _ _ _ _ _ _ _ _ _ Henv O Q) as (l1 & l2 & -> & Pu & St). left. eapply dull_dead; eassumption.
  - right. destruct (dv_at d) eqn:Da; try reflexivity; exfalso; (apply (menu_alive _ _ _ _ _ Henv O Q); [rewrite Da; discriminate|exact Dd]).
Qed.
Lemma goes_on_snoc : forall E U w0 tr m w, goes_on E U w0 (tr ++ [m]) w -> exists w1 a l, goes_on E U w0 tr w1 /\ act_ok a /\ whole_step E U w1 a = (w, l) /\ ~ In (Screen ODiverge) l /\ ~ In (Screen OUb) l /\
  m = mk_moment a (SpecWhole.packets l) (displayed (wh_dev w)).
Proof.
  intros E U w0 tr m w H. inversion H as [K|tr' w2 a' w3 l' H' Ha' Hs' Nd' Nu' K]; [exfalso; eapply app_cons_not_nil; exact K|]. apply app_inj_tail in K as [-> <-]. subst w3. exists w2, a', l'. auto 8.
Qed.
Lemma go_along : forall E U mem page io key t k w1 w2 l d w, env_ok E -> blen io = 260 -> in_step E U mem page io key t w1 l d -> goes_on E U (power_on mem page io key) (t ++ k) w2 ->
  akin (wh_dev w) d -> blen (wh_io w) = 260 ->
  exists w' l' d', goes_on E U w k w' /\ in_step E U mem page io key (t ++ k) w2 l' d' /\ akin (wh_dev w') d' /\ blen (wh_io w') = 260.
Proof.
  intros E U mem page io key t k w1 w2 l d w Henv Hio S. revert w2. induction k as [|m k IH] using rev_ind; intros w2 G A Lw.
  - rewrite app_nil_r in *. destruct S as (G0 & S). rewrite (goes_on_det _ _ _ _ _ _ G0 G) in *. exists w, l, d. split; [constructor|]. split; [exact (conj G0 S)|]. split; assumption.
  - rewrite app_assoc in G |- *. destruct (goes_on_snoc _ _ _ _ _ _ G) as (w3 & a & lw & G3 & Ha & Hs & Nd & Nu & ->). destruct (IH _ G3 A Lw) as (w' & l' & d' & G' & S' & A' & Lw').
    pose proof S' as (_ & O' & A3 & T'). destruct (run_told _ _ _ _ _ _ _ _ Henv Hio G3) as (_ & _ & _ & _ & L3 & _).
    destruct (whole_operate _ _ _ _ _ _ Ha L3 Hs) as (os & io0 & L0 & Ho & Hsend).
    assert (So : sound os).
    { assert (X : forall o, (forall b s, o <> OResp b s) -> ~ In (Screen o) lw -> forall x, In x os -> ~ In o (snd x)).
      { intros o No N0 x Hx K. apply N0. pose proof (send_screen o (concat (map snd os)) io0 No) as Q. rewrite Hsend in Q. cbn [snd] in Q. apply Q. apply in_concat. exists (snd x). split; [apply in_map; exact Hx|exact K]. }
      apply Forall_forall. intros x Hx. split; [apply (X ODiverge ltac:(discriminate) Nd _ Hx)|apply (X OUb ltac:(discriminate) Nu _ Hx)]. }
    destruct (operate_akin _ _ _ _ _ _ _ _ _ Henv (operated_history _ _ _ _ _ O') A3 (understood_ok _ Ha) Ho So) as (d2 & Ho2 & A2).
    assert (O2 : operated E U key (l' ++ [(understood a, os)]) d2) by (econstructor; [exact O'|apply understood_ok; exact Ha|exact Ho2|exact So]).
    destruct (operate_akin_back _ _ _ _ _ _ _ _ _ Henv (operated_history _ _ _ _ _ O') A' (understood_ok _ Ha) Ho2 So) as (d4 & Hw & A4).
    destruct (advance E U mem page io key Henv Hio _ _ _ _ _ _ _ S' Ha Ho So) as (w5 & d5 & Ew & S5). pose proof S5 as (G5 & O5 & _). assert (d5 = d2) as -> by (eapply operated_det; eassumption).
    assert (Em : SpecWhole.packets lw = answer_packets (understood a, os)).
    { assert (Sz : forall b s, In (OResp b s) (concat (map snd os)) -> (length b + 2 <= 260)%nat) by (intros b s; eapply clean_sizes; [exact Henv|exact O2]).
      destruct (send_all_ok _ io0 L0 Sz) as (io' & L' & Q). rewrite Hsend in Q. assert (lw = map on_the_wire (concat (map snd os))) as -> by congruence. reflexivity. }
    rewrite Em in *. assert (w5 = w2) as -> by (eapply goes_on_det; [exact G|exact G5]).
    destruct (whole_step E U w' a) as [w6 l6] eqn:Hs6. destruct (whole_operate _ _ _ _ _ _ Ha Lw' Hs6) as (os6 & io6 & L6 & Ho6 & Hsend6).
    assert (os6 = os) as -> by congruence. assert (wh_dev w6 = d4) as Ed by congruence.
    assert (Sz : forall b s, In (OResp b s) (concat (map snd os)) -> (length b + 2 <= 260)%nat) by (intros b s; eapply clean_sizes; [exact Henv|exact O2]).
    destruct (send_all_ok _ io6 L6 Sz) as (io' & L' & Q). rewrite Hsend6 in Q. assert (l6 = map on_the_wire (concat (map snd os))) as -> by congruence.
    assert (Ei : wh_io w6 = io') by congruence. rewrite <- Ed in A4.
    pose proof (operated_history _ _ _ _ _ O2) as Hh2.
    assert (Dis : displayed (wh_dev w2) = displayed (wh_dev w6)).
    { rewrite (akin_displayed _ _ _ _ _ Henv Hh2 A4). pose proof S5 as (_ & _ & A5 & _). apply (akin_displayed _ _ _ _ _ Henv Hh2 A5). }
    exists w6, (l' ++ [(understood a, os)]), d2. split; [|split; [exact S5|split; [exact A4|rewrite Ei; exact L']]].
    rewrite Dis. unfold answer_packets. cbn [snd]. eapply goes_on_more; [exact G'|exact Ha|exact Hs6| |].
    + intros K. pose proof (send_back ODiverge (concat (map snd os)) io6) as K2. rewrite Hsend6 in K2. apply K2 in K. apply in_concat in K as (z & Hz & K). apply in_map_iff in Hz as (x & <- & Hx). exact (proj1 (proj1 (Forall_forall _ _) So _ Hx) K).
    + intros K. pose proof (send_back OUb (concat (map snd os)) io6) as K2. rewrite Hsend6 in K2. apply K2 in K. apply in_concat in K as (z & Hz & K). apply in_map_iff in Hz as (x & <- & Hx). exact (proj2 (proj1 (Forall_forall _ _) So _ Hx) K).
Qed.
Lemma talks_same : forall E p t t', (forall k x, shown_last (t' ++ k) x -> shown_last (t ++ k) x) -> forall tr s due, talks E p t tr s due -> talks E p t' tr s due.
Proof.
  intros E p t t' Sh tr s due H. induction H as [|tr s packet r sent shown s' due H IH Np Lu Li|tr s due b sent shown s' due' H IH Ns Li]; [constructor|econstructor; eassumption|].
  eapply talks_press; [exact IH| |exact Li]. intros K. destruct (Ns K) as [-> Nr]. split; [reflexivity|]. intros Q. apply Nr, Sh, Q.
Qed.
Theorem serves_after : forall E U mem page io key tr w p r, env_ok E -> blen io = 260 -> fgoes_on E U (power_on mem page io key) tr w -> ~ dead E U (wh_dev w) ->
  tx_fits E (pl_tx p) -> act_ok (Arrives (opening p) r) -> sign_request_ok E (pl_p2 p) (pl_start p) r ->
  exists tr1 tr2 w2 s, goes_on E U w (tr1 ++ tr2) w2 /\ Forall (fun m => exists b, mo_act m = Presses b) tr1 /\
    talks E p (map snd tr ++ tr1) tr2 s false /\ good_end E p tr2 s.
Proof.
  intros E U mem page io key tr w p r Henv Hio H Nd Fit Ro Rq. destruct (replay _ _ _ _ _ _ Henv Hio _ _ H) as (trs & w1 & l & d & Fr & S & A & Lw). pose proof S as (G & O & A1 & _).
  assert (Nd1 : ~ dead E U (wh_dev w1)).
  { intros D. apply Nd. destruct (dead_whole _ _ _ _ _ _ Henv O A1 D) as [(i & q & P)|P]; [apply (dead_place E U _ i q); left|apply (dead_place E U _ 0 0); right]; rewrite (akin_at _ _ A); exact P. }
  destruct (serves _ _ _ _ _ _ _ _ _ _ Henv Hio G Nd1 Fit Ro Rq) as (tr1 & tr2 & w2 & s & G2 & Fp & Ta & Ge).
  destruct (go_along _ _ _ _ _ _ _ _ _ _ _ _ _ Henv Hio S G2 A Lw) as (w' & _ & _ & Gw & _). exists tr1, tr2, w', s. split; [exact Gw|]. split; [exact Fp|]. split; [|exact Ge].
  eapply talks_same; [|exact Ta]. intros k x K. rewrite <- app_assoc in K |- *. apply (proj1 (shown_same _ _ _ _ Fr)). exact K.
Qed.
Theorem stuck_after : forall E U mem page io key tr w, env_ok E -> blen io = 260 -> fgoes_on E U (power_on mem page io key) tr w -> dead E U (wh_dev w) ->
  displayed (wh_dev w) = None \/
  exists trs l1 l2 k f pages, Forall2 replays tr trs /\ tells_of E U key (concat trs) (l1 ++ l2) /\ put l1 k f pages /\ still l2 /\ (k = U_EPK \/ k = U_DA) /\ In BOTH (pressed l2) /\
    exists t x p, displayed (wh_dev w) = Some (C_TEXT t x, p).
Proof.
  intros E U mem page io key tr w Henv Hio H D. destruct (replay _ _ _ _ _ _ Henv Hio _ _ H) as (trs & w1 & l & d & Fr & S & A & Lw). pose proof S as (G & O & A1 & _).
  assert (D1 : dead E U (wh_dev w1)).
  { destruct (dead_whole _ _ _ _ _ _ Henv O A D) as [(i & q & P)|P]; [apply (dead_place E U _ i q); left|apply (dead_place E U _ 0 0); right]; rewrite (akin_at _ _ A1); exact P. }
  pose proof (operated_history _ _ _ _ _ O) as Hh. rewrite (akin_displayed _ _ _ _ _ Henv Hh A), <- (akin_displayed _ _ _ _ _ Henv Hh A1).
  destruct (stuck _ _ _ _ _ _ _ _ Henv Hio G D1) as [K|(l1 & l2 & k & f & pages & K)]; [left; exact K|right]. exists trs, l1, l2, k, f, pages. split; [exact Fr|exact K].
Qed.

(** ** Where nothing fails *)
Lemma none_step : forall E F key l d st e, env_ok E -> history E key l d -> near st d -> stack_ok F -> hmac_works F -> ~ call_failed F -> event_ok e -> fstep E F st e = step E st e.
Proof.
  intros E F key l d st e Henv H Nr HF HM Hn He.
  destruct (fstep_cases E F Henv HF HM st e He (near_shape _ _ Nr (history_shape _ _ _ _ H)) (near_range _ _ _ Nr (reachable_range _ _ _ _ Henv H))) as [(e' & _ & [->|K] & Ke)|(K & _)]; [exact Ke|contradiction|contradiction].
Qed.
Theorem none_fails : forall E U mem page io key tr w F a, env_ok E -> blen io = 260 -> fgoes_on E U (power_on mem page io key) tr w -> stack_ok F -> hmac_works F -> act_ok a ->
  ~ call_failed F -> fwhole_step E F U w a = whole_step E U w a.
Proof.
  intros E U mem page io key tr w F a Henv Hio H HF HM Ha Hn. destruct (replay _ _ _ _ _ _ Henv Hio _ _ H) as (trs & w1 & l & d & Fr & S & A & Lw). pose proof S as (G & O & A1 & _).
  pose proof (fun e => none_step E F key _ _ (dv_st (wh_dev w)) e Henv (operated_history _ _ _ _ _ O) (akin_near _ _ A) HF HM Hn) as St. clear - St Ha. unfold fwhole_step, whole_step. destruct a as [p r|b].
  - pose proof (raw_heard E (dv_st (wh_dev w)) (Receive p r) (wh_io w) Ha) as R. cbn [heard] in R. pose proof (St (command_of p r) (WireProofs.heard_ok _ Ha)) as Se. unfold receive_by. rewrite Se, R.
    destruct (dv_at (wh_dev w)); try (destruct w; reflexivity); destruct (step E (dv_st (wh_dev w)) (command_of p r)) as [st outs]; cbn [map snd concat]; rewrite app_nil_r; destruct (send_all outs (write_over p (wh_io w))) as [io1 l1]; reflexivity.
  - assert (K : press_by (fstep E F) U (wh_dev w) b = press E U (wh_dev w) b).
    { rewrite <- same_press. destruct (press_once U (wh_dev w) b) as [(d2 & K & _)|(e & at_ & Hu & K & _)]; [rewrite !K; reflexivity|]. apply K, St, user_event_ok, Hu. }
    rewrite K. reflexivity.
Qed.
