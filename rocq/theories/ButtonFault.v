(** A run by buttons with failing calls looks like one without. *)
From Coq Require Import String.
From Verif Require Import Lib Env TxTable UiFlow P2pkOp App SpecTx SpecTrace SpecScreen SpecSign
  Moves TraceScreen SessionProofs Fault LowApp SpecFault LowProofs FaultProofs Buttons SpecButtons ButtonProofs ButtonRun ButtonOut WholeProofs FaultButtons SpecFaultRun.
#[local] Arguments N.eqb : simpl never.
#[local] Arguments N.ltb : simpl never.
#[local] Arguments N.leb : simpl never.
#[local] Arguments N.sub : simpl never.
#[local] Arguments blen : simpl never.

(** With the application of App.v the engine is that of Buttons.v. *)
Lemma same_press : forall E U d b, press_by (step E) U d b = press E U d b. Proof. reflexivity. Qed.
Lemma same_receive : forall E d e, receive_by (step E) d e = receive E d e. Proof. reflexivity. Qed.

(** ** A press runs the application at most once *)
Definition once (x : (state -> event -> result) -> device * list (event * list output)) (d : device) : Prop :=
  (exists d', (forall run, x run = (d', [])) /\ dv_st d' = dv_st d) \/
  exists e at_, by_user e = true /\ (forall run run', run (dv_st d) e = run' (dv_st d) e -> x run = x run') /\
    (forall run, exists d', x run = (d', [(e, snd (run (dv_st d) e))]) /\ dv_st d' = fst (run (dv_st d) e) /\
       (responds (snd (run (dv_st d) e)) = true -> length (snd (run (dv_st d) e)) = 1%nat -> d' = mk_device (fst (run (dv_st d) e)) (dv_page d) at_)) /\
    (e <> UiPathBoth -> at_ = P_AT 0 0).
Lemma once_none : forall x d d', (forall run, x run = (d', [])) -> dv_st d' = dv_st d -> once x d.
Proof. intros x d d' H S. left. eauto. Qed.
Lemma arrive_once : forall U d pg i fw, pg = dv_page d -> once (fun run => arrive_by run U (dv_st d) pg i fw) d.
Proof.
  intros U d pg i fw ->. unfold arrive_by. destruct (cell (dv_st d) i) eqn:C; try (eapply once_none; [intros; reflexivity|reflexivity]).
  - right. exists UiUpper, (P_AT 0 0). split; [reflexivity|]. split; [intros run run' K; rewrite K; reflexivity|]. split; [|reflexivity].
    intros run. destruct (run (dv_st d) UiUpper) as [st' outs]. cbn [fst snd]. eexists. split; [reflexivity|].
    split; [destruct outs as [|[] [|]]; reflexivity|]. intros R L. destruct outs as [|[] [|]]; try discriminate R; try discriminate L. reflexivity.
  - right. exists UiLower, (P_AT 0 0). split; [reflexivity|]. split; [intros run run' K; rewrite K; reflexivity|]. split; [|reflexivity].
    intros run. destruct (run (dv_st d) UiLower) as [st' outs]. cbn [fst snd]. eexists. split; [reflexivity|].
    split; [destruct outs as [|[] [|]]; reflexivity|]. intros R L. destruct outs as [|[] [|]]; try discriminate R; try discriminate L. reflexivity.
Qed.
Lemma fire_once : forall d e at_, by_user e = true -> (e <> UiPathBoth -> at_ = P_AT 0 0) -> once (fun run => fire_by run d e at_) d.
Proof.
  intros d e at_ Hu Ha. right. exists e, at_. split; [exact Hu|]. unfold fire_by. split; [intros run run' K; rewrite K; reflexivity|]. split; [|exact Ha].
  intros run. destruct (run (dv_st d) e) as [st' outs]. cbn [fst snd]. eexists. split; [reflexivity|]. split; reflexivity.
Qed.
Lemma validate_once : forall d i q, once (fun run => validate_by run d i q) d.
Proof.
  intros d i q. unfold validate_by. destruct (cell (dv_st d) i); try (eapply once_none; [intros; reflexivity|reflexivity]); try (apply fire_once; [reflexivity|congruence]).
  destruct (bytes_eqb _ _); [apply fire_once; [reflexivity|congruence]|]. destruct (bytes_eqb _ _); [apply fire_once; [reflexivity|congruence]|].
  eapply once_none; [intros; reflexivity|reflexivity].
Qed.
Lemma next_once : forall U d i, once (fun run => flow_next_by run U d i) d.
Proof.
  intros U d i. unfold flow_next_by. destruct (cell (dv_st d) (S i)); try (apply arrive_once; reflexivity). eapply once_none; [intros; reflexivity|reflexivity].
Qed.
Lemma prev_once : forall U d i, once (fun run => flow_prev_by run U d i) d.
Proof.
  intros U d i. unfold flow_prev_by. destruct i; [|apply arrive_once; reflexivity].
  destruct (cell (dv_st d) _); try (apply arrive_once; reflexivity); eapply once_none; [intros; reflexivity|reflexivity|..]; try (intros; reflexivity); try reflexivity.
Qed.
Lemma press_once : forall U d b, once (fun run => press_by run U d b) d.
Proof.
  intros U d b. unfold press_by. destruct (dv_at d) as [i q|c i q|i q|]; try (eapply once_none; [intros; reflexivity|reflexivity]).
  all: destruct b; [destruct q; [apply prev_once|eapply once_none; [intros; reflexivity|reflexivity]]
                   |destruct (Nat.ltb _ _); [eapply once_none; [intros; reflexivity|reflexivity]|apply next_once]
                   |destruct (_ && _); [eapply once_none; [intros; reflexivity|reflexivity]|apply validate_once]].
Qed.
Lemma press_alive : forall run U d b d' e outs, press_by run U d b = (d', [(e, outs)]) -> forall i q, dv_at d <> P_DEAD i q.
Proof. intros run U d b d' e outs H i q K. unfold press_by in H. rewrite K in H. discriminate H. Qed.

(** ** Runs and histories *)
Definition fhappened (l : list fdeed) : list (faults * obs) := concat (map (fun x => map (pair (fst x)) (snd (snd x))) l).
Lemma fhappened_snoc : forall l F a os, fhappened (l ++ [(F, (a, os))]) = fhappened l ++ map (pair F) os.
Proof. intros. unfold fhappened. rewrite map_app, concat_app. cbn [map concat fst snd]. rewrite app_nil_r. reflexivity. Qed.
Lemma foperated_last : forall E U key l F a os d', foperated E U key (l ++ [(F, (a, os))]) d' ->
  exists d, foperated E U key l d /\ stack_ok F /\ hmac_works F /\ action_ok a /\ foperate E F U d a = (d', os) /\ sound os.
Proof.
  intros E U key l F a os d' H. inversion H as [K|l0 d F0 a0 d0 os0 H1 H2 H3 H4 H5 H6 K].
  - exfalso. eapply app_cons_not_nil. exact K.
  - apply app_inj_tail in K as [-> K]. injection K as -> -> ->. exists d. auto 10.
Qed.
Lemma receive_by_shape : forall run d e d' os, receive_by run d e = (d', os) ->
  (dv_at d = P_OFF /\ os = [] /\ d' = d) \/
  exists outs, dv_at d <> P_OFF /\ os = [(e, outs)] /\ run (dv_st d) e = (dv_st d', outs) /\
    forall run' e', run' (dv_st d) e' = (dv_st d', outs) -> receive_by run' d e' = (d', [(e', outs)]).
Proof.
  intros run d e d' os H. unfold receive_by in *. destruct (dv_at d) eqn:A; [| | |injection H as <- <-; left; auto];
    right; destruct (run (dv_st d) e) as [st' outs] eqn:S; injection H as <- <-; exists outs; (split; [discriminate|]); (split; [reflexivity|]); (split; [reflexivity|]);
    cbn [dv_st]; intros run' e' K; rewrite K; reflexivity.
Qed.
Lemma foperated_history : forall E U key l d, foperated E U key l d -> fhistory E key (fhappened l) (dv_st d).
Proof.
  intros E U key l d H. induction H as [|l d F a d' os H IH HF HM Ha Ho Hs]; [apply fhistory_start|].
  rewrite fhappened_snoc. destruct a as [e|b]; cbn [foperate] in Ho.
  - apply receive_by_shape in Ho as [(_ & -> & ->)|(outs & _ & -> & S & _)]; [cbn [map]; rewrite app_nil_r; exact IH|].
    inversion Hs as [|x y Hx _]; subst. cbn [map]. eapply fhistory_step; eauto; [apply Ha|apply Hx].
  - destruct (press_once U d b) as [(d1 & K & S)|(e & at_ & Hu & _ & K & _)].
    + rewrite K in Ho. assert (d' = d1) as -> by congruence. assert (os = []) as -> by congruence. cbn [map]. rewrite app_nil_r, S. exact IH.
    + destruct (K (fstep E F)) as (d1 & K1 & S & _). rewrite K1 in Ho. assert (d1 = d') as -> by congruence. assert (os = [(e, snd (fstep E F (dv_st d) e))]) as -> by congruence.
      inversion Hs as [|x y Hx _]; subst. cbn [map]. eapply fhistory_step; [exact IH|exact HF|exact HM|apply user_event_ok; exact Hu| |apply Hx]. rewrite S. apply surjective_pairing.
Qed.

(** ** Presses on the way to Reject *)
Definition menu_of (st : state) : state := ui_menu_main (set_command st CMD_NONE).
Lemma reject_to : forall E st st', step E st UiReject = (st', [OResp [] SW_DENY]) -> st' = menu_of st.
Proof.
  intros E st st' H. cbn [step] in H. unfold ui_action in H.
  destruct (st_ui st), (st_ctx st); try discriminate H; unfold ui_action_epk, ui_action_da, ui_action_attest, ui_action_stx_approve, ui_action_stx_output, ui_action_stx_tx in H; cbv zeta in H;
    repeat match type of H with (match ?x with _ => _ end) = _ => destruct x; try discriminate H end;
    assert (st' = menu_of st) by (unfold menu_of; unfold handler_err in H; first [congruence | (injection H as <-; reflexivity)]); assumption.
Qed.
(** States with the same menu after Reject. *)
Definition differ_dyn (st st' : state) : Prop := exists y, st' = set_dyn st y.
Lemma differ_refl : forall st, differ_dyn st st. Proof. intros []. exists st_dyn. reflexivity. Qed.
Lemma differ_menu : forall st st', differ_dyn st st' -> menu_of st' = menu_of st.
Proof. intros st st' [y ->]. reflexivity. Qed.
Lemma page_differ : forall E st e st' outs, (e = UiUpper \/ e = UiLower) -> step E st e = (st', outs) -> responds outs = false -> differ_dyn st st'.
Proof.
  intros E st e st' outs He H R.
  assert (D : forall x, display_dynamic E st x = (st', outs) -> differ_dyn st st').
  { intros x K. unfold display_dynamic in K. cbv zeta in K. destruct (snd x) as [i|]; [|injection K as <- <-; eexists; reflexivity].
    destruct (page_of _ _ _) as [[t b]|s]; [injection K as <- <-; eexists; reflexivity|].
    destruct s; try (exfalso; injection K as <- <-; discriminate R); injection K as <- <-; eexists; reflexivity. }
  destruct He as [-> | ->]; cbn [step] in H; (destruct (has_pages (st_ui st)); [eapply D; exact H|injection H as <- <-; apply differ_refl]).
Qed.
Lemma turning_differ : forall E U d b d' os, b <> BOTH -> press E U d b = (d', os) -> answered (Press b, os) = false -> differ_dyn (dv_st d) (dv_st d').
Proof.
  intros E U d b d' os Nb H An.
  assert (Ar : forall i fw, arrive E U (dv_st d) (dv_page d) i fw = (d', os) -> differ_dyn (dv_st d) (dv_st d')).
  { intros i fw K. unfold arrive in K. destruct (cell (dv_st d) i); try (assert (land U (dv_st d) (dv_page d) i fw = d') as <- by congruence; apply differ_refl).
    - destruct (step E (dv_st d) UiUpper) as [st' outs] eqn:S. assert (os = [(UiUpper, outs)]) as -> by congruence. unfold answered in An. cbn [snd existsb] in An. rewrite orb_false_r in An.
      assert (dv_st d' = st') as ->. { apply (f_equal fst) in K; cbn [fst] in K; rewrite <- K; destruct outs as [|[] [|]]; reflexivity. } eapply page_differ; [left; reflexivity|exact S|exact An].
    - destruct (step E (dv_st d) UiLower) as [st' outs] eqn:S. assert (os = [(UiLower, outs)]) as -> by congruence. unfold answered in An. cbn [snd existsb] in An. rewrite orb_false_r in An.
      assert (dv_st d' = st') as ->. { apply (f_equal fst) in K; cbn [fst] in K; rewrite <- K; destruct outs as [|[] [|]]; reflexivity. } eapply page_differ; [right; reflexivity|exact S|exact An]. }
  assert (Nx : forall i, flow_next E U d i = (d', os) -> differ_dyn (dv_st d) (dv_st d')).
  { intros i K. unfold flow_next in K. destruct (cell (dv_st d) (S i)); try (eapply Ar; exact K). assert (d = d') as <- by congruence. apply differ_refl. }
  assert (Pv : forall i, flow_prev E U d i = (d', os) -> differ_dyn (dv_st d) (dv_st d')).
  { intros i K. unfold flow_prev in K. destruct i; [|eapply Ar; exact K]. destruct (cell (dv_st d) _); try (assert (d = d') as <- by congruence; apply differ_refl). eapply Ar; exact K. }
  unfold press in H. destruct (dv_at d) as [i q|c i q|i q|]; try (assert (d = d') as <- by congruence; apply differ_refl).
  all: destruct b; [destruct q; [eapply Pv; exact H|injection H as <- _; apply differ_refl]|destruct (Nat.ltb _ _); [injection H as <- _; apply differ_refl|eapply Nx; exact H]|congruence].
Qed.
Lemma turnings_differ : forall E U key l l2 d d2, operated E U key l d -> operated E U key (l ++ l2) d2 ->
  Forall (fun x => exists b, fst x = Press b /\ b <> BOTH /\ answered x = false) l2 -> menu_of (dv_st d2) = menu_of (dv_st d).
Proof.
  intros E U key l l2 d d2 H. revert d2. induction l2 as [|[a os] l2 IH] using rev_ind; intros d2 H2 F; [rewrite app_nil_r in H2; rewrite (operated_det _ _ _ _ _ _ H H2); reflexivity|].
  apply Forall_app in F as [F Fa]. apply Forall_inv in Fa as (b & Ea & Nb & An). cbn [fst] in Ea. subst a.
  rewrite (app_assoc l) in H2. apply operated_last in H2 as (d1 & H1 & _ & Hop & _). rewrite <- (IH _ H1 F). apply differ_menu. eapply turning_differ; eassumption.
Qed.

(** ** The run without failures *)
Lemma near_on : forall st st', near st st' -> st_busy st = true -> st = st'.
Proof. intros st st' [] B; [reflexivity|discriminate B]. Qed.
Lemma near_shape : forall st st', near st st' -> shape st' -> shape st. Proof. intros st st' Nr H. destruct Nr; exact H. Qed.
Lemma near_range : forall E st st', near st st' -> st_range E st' -> st_range E st. Proof. intros E st st' Nr H. destruct Nr; exact H. Qed.
Lemma near_ui : forall st st', near st st' -> st_ui st = st_ui st'. Proof. intros st st' []; reflexivity. Qed.
Lemma asked : forall E key tr st0 st st' outs, env_ok E -> history E key tr st0 -> near st st0 -> step E st UiReject = (st', outs) -> outs <> [] -> st_busy st = true.
Proof.
  intros E key tr st0 st st' outs Henv H Nr S N0. rewrite (near_busy _ _ Nr). destruct (st_busy st0) eqn:B; [reflexivity|]. exfalso. apply N0.
  destruct (menus_hold _ _ _ _ Henv H B) as (h & _ & F). cbn [step] in S. unfold ui_action in S. rewrite (near_ui _ _ Nr) in S. destruct F as [[-> _]|[-> _]] in S; congruence.
Qed.
Lemma akin_place : forall d d', akin d d' -> dv_at d = dv_at d'. Proof. intros d d' []; reflexivity. Qed.
Lemma akin_near : forall d d', akin d d' -> near (dv_st d) (dv_st d'). Proof. intros d d' []; [constructor|assumption]. Qed.
Lemma refused_sound : forall e s, sound [(e, [OResp [] s])].
Proof. intros e s. apply sound_one. split; intros [K|[]]; discriminate K. Qed.

Lemma out_akin : forall E U key l d d' st' pg, env_ok E -> operated E U key l d' -> akin d d' -> (forall i q, dv_at d <> P_DEAD i q) -> st_busy (dv_st d) = true -> st' = menu_of (dv_st d) ->
  exists l2 d2, operated E U key (l ++ l2 ++ [(Press BOTH, [(UiReject, [OResp [] SW_DENY])])]) d2 /\
    Forall (fun x => exists b, fst x = Press b /\ b <> BOTH /\ answered x = false) l2 /\ akin (mk_device st' pg (P_AT 0 0)) d2.
Proof.
  intros E U key l d d' st' pg Henv H A Al B ->. pose proof (operated_history _ _ _ _ _ H) as Hh. pose proof (near_on _ _ (akin_near _ _ A) B) as En. rewrite En in B |- *. rewrite (akin_place _ _ A) in Al.
  destruct (screen_inv_holds E key _ _ Henv Hh) as [_ S]. rewrite B in S. destruct S as (q & pages & So & _).
  destruct (was_put _ _ _ _ _ _ _ _ _ Henv H So) as (l1 & l0 & -> & Hput & Hs).
  assert (Nd : ~ dead E U d'). { intros K. destruct (dead_dead _ _ _ _ _ _ _ _ _ Henv Hput H Hs K) as (i & p & Pl). exact (Al _ _ Pl). }
  destruct (way_out _ _ _ _ _ _ _ _ _ Henv Hput Hs H Nd) as (l2 & d2 & H2 & _ & F & _). exists l2, d2. split; [exact H2|]. split; [exact F|].
  rewrite (app_assoc (l1 ++ l0)) in H2. pose proof (operated_history _ _ _ _ _ H2) as Hh2. apply operated_last in H2 as (d1 & H1 & _ & Hop & _). cbn [operate] in Hop.
  pose proof (turnings_differ _ _ _ _ _ _ _ H H1 F) as Em.
  assert (P2 : d2 = mk_device (menu_of (dv_st d1)) (dv_page d1) (P_AT 0 0)).
  { destruct (press_once U d1 BOTH) as [(d3 & K & _)|(e & at_ & _ & _ & K & Ka)]; [rewrite <- same_press, K in Hop; discriminate Hop|].
    destruct (K (step E)) as (d3 & K1 & _ & K2). rewrite same_press, Hop in K1.
    assert (e = UiReject) as -> by congruence. assert (Es : snd (step E (dv_st d1) UiReject) = [OResp [] SW_DENY]) by congruence. assert (d3 = d2) as -> by congruence.
    rewrite Es in K2. rewrite (K2 eq_refl eq_refl), (Ka ltac:(discriminate)). f_equal. eapply reject_to. rewrite <- Es. apply surjective_pairing. }
  rewrite P2, Em. apply akin_differ; [constructor|]. left. rewrite P2 in Hh2. cbn [dv_st] in Hh2. rewrite Em in Hh2. eapply idle_plain; [exact Henv|exact Hh2|reflexivity].
Qed.

Lemma user_same : forall e e', by_user e = true -> same_event e e' -> e' = e.
Proof. intros e e' Hu H. destruct H; [reflexivity|discriminate Hu]. Qed.
Lemma step_stands : forall E U key ks d d' F a d1 os, env_ok E -> operated E U key ks d' -> akin d d' ->
  stack_ok F -> hmac_works F -> action_ok a -> foperate E F U d a = (d1, os) -> sound os ->
  exists k d1', stands (F, (a, os)) k /\ operated E U key (ks ++ k) d1' /\ akin d1 d1'.
Proof.
  intros E U key ks d d' F a d1 os Henv H' A HF HM Ha Ho Hs. pose proof (operated_history _ _ _ _ _ H') as Hh'. pose proof (akin_near _ _ A) as Nr.
  pose proof (fun e He => fstep_cases E F Henv HF HM (dv_st d) e He (near_shape _ _ Nr (history_shape _ _ _ _ Hh')) (near_range _ _ _ Nr (reachable_range _ _ _ _ Henv Hh'))) as Cases.
  destruct a as [e|b]; cbn [foperate] in Ho.
  - destruct Ha as [Hu He]. destruct (receive_by_shape _ _ _ _ _ Ho) as [(Off & -> & ->)|(outs & On & -> & S & Re)].
    + exists [(Host e, [])], d'. split; [constructor|]. split; [|exact A]. eapply operated_more; [exact H'|split; assumption| |constructor].
      cbn [operate]. unfold receive. rewrite <- (akin_place _ _ A), Off. reflexivity.
    + assert (Go : forall e' outs', by_user e' = false -> event_ok e' -> step E (dv_st d) e' = (dv_st d1, outs') ->
        receive E d e' = (d1, [(e', outs')]) -> sound [(e', outs')] -> exists d1', operated E U key (ks ++ [(Host e', [(e', outs')])]) d1' /\ akin d1 d1').
      { intros e' outs' Hu' He' S' R' So'. destruct (receive_akin _ _ _ _ _ _ _ _ Henv Hh' A Hu' He' R' So') as (d1' & R1 & A1).
        exists d1'. split; [|exact A1]. eapply operated_more; [exact H'|split; assumption|exact R1|exact So']. }
      destruct (Cases e He) as [(e' & Se & Sc & Ke)|(Hc & s & e' & s' & Fs & Ko & He' & Kst & Ns & _ & Ku)].
      * assert (Hu' : by_user e' = false) by (destruct Se; [exact Hu|reflexivity]). rewrite S in Ke. apply sound_one in Hs.
        destruct (Go e' outs Hu' (same_event_ok _ _ Se He) (eq_sym Ke)) as (d1' & G1 & G2); [rewrite <- same_receive; apply Re; symmetry; exact Ke|apply sound_one; exact Hs|].
        exists [(Host e', [(e', outs)])], d1'. split; [constructor; assumption|]. split; assumption.
      * rewrite Hu in Ku. rewrite S in Ko, Kst. cbn [fst snd] in Ko, Kst. subst outs.
        destruct (Go e' [OResp [] s'] Ku He' Kst) as (d1' & G1 & G2); [|apply refused_sound|].
        { clear - Ho S Kst. unfold receive_by, receive in *. rewrite Kst. rewrite S in Ho. cbn [existsb orb] in *. destruct (dv_at d); first [congruence|discriminate Ho]. }
        exists [(Host e', [(e', [OResp [] s'])])], d1'. split; [constructor; assumption|]. split; assumption.
  - assert (Go : press E U d b = (d1, os) -> exists k d1', stands (F, (Press b, os)) k /\ operated E U key (ks ++ k) d1' /\ akin d1 d1').
    { intros P. destruct (press_akin _ _ _ _ _ _ _ _ _ Henv Hh' A P Hs) as (d1' & P1 & A1). exists [(Press b, os)], d1'. split; [constructor|]. split; [|exact A1].
      eapply operated_more; [exact H'|exact I|exact P1|exact Hs]. }
    destruct (press_once U d b) as [(d2 & K & _)|(e & at_ & Hu & Kr & K & Ka)]; [rewrite K in Ho; apply Go; rewrite <- same_press, K; exact Ho|].
    assert (Gw : fstep E F (dv_st d) e = step E (dv_st d) e -> exists k d1', stands (F, (Press b, os)) k /\ operated E U key (ks ++ k) d1' /\ akin d1 d1').
    { intros Q. apply Go. rewrite <- same_press, <- (Kr _ _ Q). exact Ho. }
    destruct (Cases e (user_event_ok _ Hu)) as [(e' & Se & Sc & Ke)|(Hc & s & e' & s' & Fs & Ko & He' & Kst & Ns & _ & Ku)].
    + apply Gw. rewrite Ke, (user_same _ _ Hu Se). reflexivity.
    + rewrite Hu in Ku. destruct Ku as [-> ->].
      assert (Q : e = UiPathBoth \/ e <> UiPathBoth) by (destruct e; first [left; reflexivity|right; discriminate]). destruct Q as [-> |Q]; [apply Gw; reflexivity|].
      destruct (K (fstep E F)) as (d2 & K1 & _ & K2). rewrite Ko in K1, K2. rewrite K1 in Ho. assert (d1 = d2) as -> by congruence. assert (os = [(e, [OResp [] s])]) as -> by congruence.
      rewrite (K2 eq_refl eq_refl), (Ka Q). pose proof (asked _ _ _ _ _ _ _ Henv Hh' Nr Kst ltac:(discriminate)) as B.
      destruct (out_akin E U key ks d d' (fst (fstep E F (dv_st d) e)) (dv_page d) Henv H' A (press_alive _ _ _ _ _ _ _ K1) B (reject_to _ _ _ Kst)) as (l2 & d3 & H3 & F3 & A3).
      exists (l2 ++ [(Press BOTH, [(UiReject, [OResp [] SW_DENY])])]), d3. split; [constructor; assumption|]. split; assumption.
Qed.

(** The two runs, action by action. *)
Inductive mirrored (E : env) (U : ux) (key : bytes) : list fdeed -> list (list deed) -> device -> device -> Prop :=
| mi_start : mirrored E U key [] [] (switched_on key) (switched_on key)
| mi_more : forall l ls d d' x k d1 d1', mirrored E U key l ls d d' -> stands x k -> foperated E U key (l ++ [x]) d1 -> operated E U key (concat (ls ++ [k])) d1' -> akin d1 d1' ->
    mirrored E U key (l ++ [x]) (ls ++ [k]) d1 d1'.
Lemma mirrored_runs : forall E U key l ls d d', mirrored E U key l ls d d' -> foperated E U key l d /\ operated E U key (concat ls) d' /\ akin d d' /\ Forall2 stands l ls.
Proof.
  intros E U key l ls d d' H. induction H as [|l ls d d' x k d1 d1' H IH S Hf Ho A]; [repeat constructor|].
  split; [exact Hf|]. split; [exact Ho|]. split; [exact A|]. apply Forall2_app; [apply IH|constructor; [exact S|constructor]].
Qed.
Lemma mirror : forall E U key l d, env_ok E -> foperated E U key l d -> exists ls d', mirrored E U key l ls d d'.
Proof.
  intros E U key l d Henv H. induction H as [|l d F a d1 os H IH HF HM Ha Ho Hs]; [exists [], (switched_on key); constructor|].
  destruct IH as (ls & d' & M). destruct (mirrored_runs _ _ _ _ _ _ _ M) as (_ & H' & A & _).
  destruct (step_stands _ _ _ _ _ _ _ _ _ _ Henv H' A HF HM Ha Ho Hs) as (k & d1' & S & H1 & A1).
  exists (ls ++ [k]), d1'. eapply mi_more; [exact M|exact S|econstructor; eassumption| |exact A1]. rewrite concat_app. cbn [concat]. rewrite app_nil_r. exact H1.
Qed.
Lemma mirrored_length : forall E U key l ls d d', mirrored E U key l ls d d' -> length ls = length l.
Proof. intros E U key l ls d d' H. destruct (mirrored_runs _ _ _ _ _ _ _ H) as (_ & _ & _ & F). clear - F. induction F; [reflexivity|]. cbn [length]. congruence. Qed.
Lemma mirrored_prefix : forall E U key l ls d d' l1 l2, mirrored E U key l ls d d' -> l = l1 ++ l2 -> exists d1 d1', mirrored E U key l1 (firstn (length l1) ls) d1 d1'.
Proof.
  intros E U key l ls d d' l1 l2 H. revert l1 l2. induction H as [|l ls d d' x k d1 d1' H IH S Hf Ho A]; intros l1 l2 Eq.
  - symmetry in Eq. apply app_eq_nil in Eq as [-> ->]. do 2 eexists. constructor.
  - destruct l2 as [|y l2 _] using rev_ind.
    + rewrite app_nil_r in Eq. subst l1. exists d1, d1'. rewrite firstn_all2; [econstructor; eassumption|].
      rewrite !app_length, (mirrored_length _ _ _ _ _ _ _ H). cbn [length]. lia.
    + rewrite app_assoc in Eq. apply app_inj_tail in Eq as [-> _]. destruct (IH _ _ eq_refl) as (d2 & d2' & M). exists d2, d2'.
      rewrite firstn_app, (mirrored_length _ _ _ _ _ _ _ H), app_length. replace (length l1 - (length l1 + length l2))%nat with 0%nat by lia. cbn [firstn]. rewrite app_nil_r. exact M.
Qed.

Theorem run_stands : forall E U key l d, env_ok E -> foperated E U key l d -> exists ls, Forall2 stands l ls /\
  forall l1 l2, l = l1 ++ l2 -> exists d1 d1', foperated E U key l1 d1 /\ operated E U key (concat (firstn (length l1) ls)) d1' /\ displayed d1 = displayed d1'.
Proof.
  intros E U key l d Henv H. destruct (mirror _ _ _ _ _ Henv H) as (ls & d' & M). exists ls. split; [apply (mirrored_runs _ _ _ _ _ _ _ M)|].
  intros l1 l2 Eq. destruct (mirrored_prefix _ _ _ _ _ _ _ _ _ M Eq) as (d1 & d1' & M1). destruct (mirrored_runs _ _ _ _ _ _ _ M1) as (A1 & A2 & A3 & _).
  exists d1, d1'. split; [exact A1|]. split; [exact A2|]. eapply akin_displayed; [exact Henv|eapply operated_history; exact A2|exact A3].
Qed.

(** ** Back from the run without failures *)
Definition manual (x : deed) : Prop := exists b, fst x = Press b.
Lemma stands_kinds : forall x k, stands x k -> (exists e os, k = [(Host e, os)]) \/ Forall manual k.
Proof.
  intros x k H. destruct H as [F b os|F e|F e e' outs|F e e' s s'|F b e s l2 Hc Hf H].
  - right. constructor; [eexists; reflexivity|constructor].
  - left. eauto.
  - left. eauto.
  - left. eauto.
  - right. apply Forall_app. split; [|constructor; [eexists; reflexivity|constructor]]. eapply Forall_impl; [|exact H]. intros y (b' & K & _). exists b'. exact K.
Qed.
Lemma hand_prefix : forall (y R k0 : list deed) h k2, Forall manual y -> (exists e os, h = (Host e, os)) -> y ++ R = k0 ++ h :: k2 -> exists k, k0 = y ++ k /\ R = k ++ h :: k2.
Proof.
  intros y R k0 h k2 Hy (e & os & ->). revert k0. induction Hy as [|x y (b & Ex) Hy IH]; intros k0 Eq; [exists k0; split; [reflexivity|exact Eq]|].
  destruct k0 as [|z k0]; cbn [app] in Eq; [exfalso; injection Eq as -> _; discriminate Ex|].
  injection Eq as -> Eq. destruct (IH _ Eq) as (k & -> & ->). exists k. split; reflexivity.
Qed.
Lemma cut_put : forall l ls k1 k2 k f pages, Forall2 stands l ls -> concat ls = k1 ++ k2 -> put k1 k f pages ->
  exists l1 l2 ls2, l = l1 ++ l2 /\ ls = firstn (length l1) ls ++ ls2 /\ concat (firstn (length l1) ls) = k1 /\ concat ls2 = k2 /\ Forall2 stands l2 ls2 /\ put (map snd l1) k f pages.
Proof.
  intros l ls k1 k2 k f pages Fs Eq (k0 & e & ->). rewrite <- app_assoc in Eq. cbn [app] in Eq. revert k0 Eq. induction Fs as [|x y l ls S Fs IH]; intros k0 Eq; [exfalso; eapply app_cons_not_nil; exact Eq|].
  cbn [concat] in Eq.
  assert (Rec : forall y', y = y' -> (exists k', k0 = y' ++ k' /\ concat ls = k' ++ (Host e, [(e, [OShow k f pages])]) :: k2) ->
    exists l1 l2 ls2, x :: l = l1 ++ l2 /\ y :: ls = firstn (length l1) (y :: ls) ++ ls2 /\ concat (firstn (length l1) (y :: ls)) = k0 ++ [(Host e, [(e, [OShow k f pages])])] /\
      concat ls2 = k2 /\ Forall2 stands l2 ls2 /\ put (map snd l1) k f pages).
  { intros y' <- (k' & -> & K). destruct (IH _ K) as (l1 & l2 & ls2 & -> & E1 & E2 & E3 & F2 & (m0 & e1 & P)). exists (x :: l1), l2, ls2. split; [reflexivity|].
    cbn [length firstn]. split; [cbn [app]; rewrite <- E1; reflexivity|]. split; [cbn [concat]; rewrite E2, <- app_assoc; reflexivity|]. split; [exact E3|]. split; [exact F2|].
    exists (snd x :: m0), e1. cbn [map app]. rewrite P. reflexivity. }
  destruct (stands_kinds _ _ S) as [(e1 & os1 & ->)|Hh].
  - cbn [app] in Eq. destruct k0 as [|z k0]; cbn [app] in Eq.
    + exists [x], l, ls. split; [reflexivity|]. cbn [length firstn app concat]. split; [reflexivity|]. assert (e1 = e) as -> by congruence. assert (os1 = [(e, [OShow k f pages])]) as -> by congruence.
      split; [reflexivity|]. split; [congruence|]. split; [exact Fs|]. cbn [map]. exists [].
      inversion S; subst; cbn [snd app]; [eexists; reflexivity|]. exfalso. match goal with K : ?l2 ++ _ = [_] |- _ => destruct l2 as [|? l2]; cbn [app] in K; [discriminate K|]; injection K as _ K; destruct l2; discriminate K end.
    + apply (Rec _ eq_refl). exists k0. injection Eq as <- Eq. split; [reflexivity|exact Eq].
  - apply (Rec _ eq_refl). eapply hand_prefix; [exact Hh|do 2 eexists; reflexivity|exact Eq].
Qed.
Lemma still_singles : forall l ls, Forall2 stands l ls -> still (concat ls) -> still (map snd l) /\ Forall (fun k => length k = 1%nat) ls.
Proof.
  intros l ls F. induction F as [|x y l ls S F IH]; intros Hs; [split; constructor|]. cbn [concat] in Hs. apply Forall_app in Hs as [Hy Hs]. destruct (IH Hs) as [I1 I2]. cbn [map].
  destruct S as [F0 b os|F0 e|F0 e e' outs|F0 e e' s s'|F0 b e s l2 Hc Hf H].
  1-4: split; constructor; try assumption; try reflexivity; cbn [snd fst]; try exact I.
  - apply Forall_inv in Hy. exact Hy.
  - exfalso. apply Forall_app in Hy as [_ Hy]. apply Forall_inv in Hy. discriminate Hy.
Qed.
Lemma singles_prefix : forall (ls : list (list deed)) x1 x2, Forall (fun k => length k = 1%nat) ls -> concat ls = x1 ++ x2 -> concat (firstn (length x1) ls) = x1.
Proof.
  intros ls x1 x2 F. revert x1. induction F as [|k ls K F IH]; intros x1 Eq.
  - cbn [concat] in Eq. symmetry in Eq. apply app_eq_nil in Eq as [-> _]. reflexivity.
  - destruct k as [|y [|]]; try discriminate K. cbn [concat app] in Eq. destruct x1 as [|z x1]; [reflexivity|]. cbn [app] in Eq. injection Eq as <- Eq.
    cbn [length firstn concat app]. rewrite (IH _ Eq). reflexivity.
Qed.
Lemma foperated_det : forall E U key l d1 d2, foperated E U key l d1 -> foperated E U key l d2 -> d2 = d1.
Proof.
  intros E U key l d1 d2 H. revert d2. induction H as [|l d F a d' os H IH HF HM Ha Ho Hs]; intros d2 H2.
  - inversion H2 as [K|? ? ? ? ? ? ? ? ? ? ? ? K]; [reflexivity|]. exfalso. eapply app_cons_not_nil. symmetry. exact K.
  - apply foperated_last in H2 as (d0 & H2 & _ & _ & _ & Ho2 & _). apply IH in H2. subst d0. congruence.
Qed.

(** What was seen in the one was seen in the other. *)
Lemma seen_fseen : forall E U key l ls d d' l1 l2 ls2 k1 k2 c p, env_ok E -> mirrored E U key l ls d d' -> l = l1 ++ l2 -> ls = firstn (length l1) ls ++ ls2 ->
  concat (firstn (length l1) ls) = k1 -> concat ls2 = k2 -> Forall (fun k => length k = 1%nat) ls2 -> seen E U key k1 k2 c p -> fseen E U key l1 l2 c p.
Proof.
  intros E U key l ls d d' l1 l2 ls2 k1 k2 c p Henv M El Els E1 E2 F1 (x1 & x2 & dd & -> & Hd & Dp).
  pose proof (mirrored_length _ _ _ _ _ _ _ M) as Len.
  assert (L1 : length (firstn (length l1) ls) = length l1) by (rewrite firstn_length, Len, El, app_length; lia).
  assert (L2 : length ls2 = length l2). { apply (f_equal (@length _)) in Els. rewrite app_length, L1, Len, El, app_length in Els. lia. }
  assert (L3 : (length x1 <= length l2)%nat).
  { assert (X : length (concat ls2) = length ls2). { clear - F1. induction F1 as [|k ls K F IH]; [reflexivity|]. cbn [concat length]. rewrite app_length, K, IH. reflexivity. }
    rewrite E2, app_length in X. lia. }
  assert (Ex : l = (l1 ++ firstn (length x1) l2) ++ skipn (length x1) l2) by (rewrite <- app_assoc, firstn_skipn; exact El).
  destruct (mirrored_prefix _ _ _ _ _ _ _ _ _ M Ex) as (d1 & d1' & M1). destruct (mirrored_runs _ _ _ _ _ _ _ M1) as (A1 & A2 & A3 & _).
  exists (firstn (length x1) l2), (skipn (length x1) l2), d1. split; [symmetry; apply firstn_skipn|]. split; [exact A1|]. rewrite <- Dp.
  rewrite (akin_displayed _ _ _ _ _ Henv (operated_history _ _ _ _ _ A2) A3).
  assert (Ec : concat (firstn (length (l1 ++ firstn (length x1) l2)) ls) = k1 ++ x1).
  { rewrite app_length, firstn_length_le by exact L3. rewrite Els at 1. rewrite firstn_app, L1, firstn_all2 by lia.
    replace (length l1 + length x1 - length l1)%nat with (length x1) by lia. rewrite concat_app, E1, (singles_prefix _ _ _ F1 E2). reflexivity. }
  rewrite Ec in A2. rewrite (operated_det _ _ _ _ _ _ Hd A2). reflexivity.
Qed.

(** ** Signatures and answers *)
Lemma mirrored_last : forall E U key l x ls d d', mirrored E U key (l ++ [x]) ls d d' -> exists m k d0 d0', ls = m ++ [k] /\ mirrored E U key l m d0 d0' /\ stands x k.
Proof.
  intros E U key l x ls d d' H. inversion H as [K|l0 ls0 d0 d0' x0 k d1 d1' M S H1 H2 A K].
  - exfalso. eapply app_cons_not_nil. exact K.
  - apply app_inj_tail in K as [-> ->]. eauto 10.
Qed.
Lemma back_put : forall E U key l ls d d' k1 k2 k f pages, env_ok E -> mirrored E U key l ls d d' -> concat ls = k1 ++ k2 -> put k1 k f pages -> still k2 ->
  exists l1 l2, l = l1 ++ l2 /\ put (map snd l1) k f pages /\ still (map snd l2) /\ forall c p, seen E U key k1 k2 c p -> fseen E U key l1 l2 c p.
Proof.
  intros E U key l ls d d' k1 k2 k f pages Henv M Eq P S. destruct (mirrored_runs _ _ _ _ _ _ _ M) as (_ & _ & _ & Fs).
  destruct (cut_put _ _ _ _ _ _ _ Fs Eq P) as (l1 & l2 & ls2 & El & Els & E1 & E2 & F2 & P'). rewrite <- E2 in S. destruct (still_singles _ _ F2 S) as [S' F1].
  exists l1, l2. split; [exact El|]. split; [exact P'|]. split; [exact S'|]. intros c p. eapply seen_fseen; eassumption.
Qed.
Theorem signed_by_hand : forall E U key l F a os d o sig, env_ok E -> foperated E U key (l ++ [(F, (a, os))]) d -> In o os -> signature o = Some sig ->
  a = Press BOTH /\ exists d0 l1 l2 f pages, foperated E U key l d0 /\ displayed d0 = Some (C_APPROVE, O) /\ l = l1 ++ l2 /\ put (map snd l1) U_STX_TX f pages /\ still (map snd l2) /\
    (fseen E U key l1 l2 C_REJECT O \/
     forall oc, In oc (cards f pages) -> exists c, oc = Some c /\ (c = C_REJECT \/ forall p, (p <= extra U c)%nat -> fseen E U key l1 l2 c p)).
Proof.
  intros E U key l F a os d o sig Henv H Hin Hsig. destruct (mirror _ _ _ _ _ Henv H) as (ls & d' & M).
  destruct (mirrored_runs _ _ _ _ _ _ _ M) as (_ & Hop & _). destruct (mirrored_last _ _ _ _ _ _ _ _ M) as (m & k & d0 & d0' & -> & M0 & S).
  destruct (mirrored_runs _ _ _ _ _ _ _ M0) as (H0 & Hop0 & A0 & _). rewrite concat_app in Hop. cbn [concat] in Hop. rewrite app_nil_r in Hop.
  inversion S as [F0 b os0|F0 e|F0 e e' outs Se Sc|F0 e e' s s' Hc Hf|F0 b e s l2 Hc Hf]; subst.
  - destruct (sign_press _ _ _ _ _ _ _ _ _ Henv Hop Hin Hsig) as (Eb & d2 & _ & _ & _ & _ & H2 & Dp & _). split; [exact Eb|]. assert (b = BOTH) as -> by congruence.
    destruct (reads_signed _ _ _ _ _ _ _ _ Henv Hop Hin Hsig) as (k1 & k2 & f & pages & Eq & P & St & Rd). destruct (back_put _ _ _ _ _ _ _ _ _ _ _ _ Henv M0 Eq P St) as (l1 & l2 & El & P' & S' & Sn).
    exists d0, l1, l2, f, pages. split; [exact H0|]. split; [rewrite (akin_displayed _ _ _ _ _ Henv (operated_history _ _ _ _ _ Hop0) A0), (operated_det _ _ _ _ _ _ H2 Hop0); exact Dp|].
    do 3 (split; [assumption|]). destruct Rd as [Rd|Rd]; [left; apply Sn; exact Rd|]. right. intros oc Ho. destruct (Rd oc Ho) as (c & -> & [-> |K]); exists C_REJECT + exists c; (split; [reflexivity|]); [left; reflexivity|].
    right. intros p L. apply Sn, K, L.
  - destruct Hin.
  - exfalso. destruct Hin as [<-|[]]. assert (K : signature (e', outs) = Some sig) by exact Hsig.
    destruct (sign_press _ _ _ _ _ _ _ _ _ Henv Hop (or_introl eq_refl) K) as (Ea & _). discriminate Ea.
  - exfalso. destruct Hin as [<-|[]]. rewrite (signature_refused e s Hf) in Hsig. discriminate Hsig.
  - exfalso. destruct Hin as [<-|[]]. rewrite (signature_refused e s Hf) in Hsig. discriminate Hsig.
Qed.
Lemma menu_silent : forall E F key tr st e, env_ok E -> history E key tr st -> by_user e = true -> responds (snd (fstep E F st e)) = true -> st_busy st = true.
Proof.
  intros E F key tr st e Henv H Hu R. destruct (st_busy st) eqn:B; [reflexivity|]. exfalso. destruct (menus_hold _ _ _ _ Henv H B) as (h & _ & K).
  assert (Um : st_ui st = U_MENU \/ st_ui st = U_ABOUT) by (destruct K as [[K _]|[K _]]; auto).
  destruct e; try discriminate Hu; cbn [fstep step] in R; unfold low_ui_action, ui_action, ui_path_both in R; destruct Um as [Um|Um]; rewrite ?Um in R; cbn [has_pages] in R; try discriminate R.
Qed.
Theorem answered_by_hand : forall E U key l F b os d', env_ok E -> foperated E U key (l ++ [(F, (Press b, os))]) d' -> answered (Press b, os) = true ->
  exists d l1 l2 k f pages, foperated E U key l d /\ l = l1 ++ l2 /\ put (map snd l1) k f pages /\ still (map snd l2) /\
    (decision k pages d b os \/ (call_failed F /\ exists e s, fault_status s /\ os = [(e, [OResp [] s])])).
Proof.
  intros E U key l F b os d' Henv H An. destruct (mirror _ _ _ _ _ Henv H) as (ls & dm & M).
  destruct (mirrored_runs _ _ _ _ _ _ _ M) as (_ & Hop & _). destruct (mirrored_last _ _ _ _ _ _ _ _ M) as (m & k & d0 & d0' & -> & M0 & S).
  destruct (mirrored_runs _ _ _ _ _ _ _ M0) as (H0 & Hop0 & A0 & _). rewrite concat_app in Hop. cbn [concat] in Hop. rewrite app_nil_r in Hop.
  pose proof (operated_history _ _ _ _ _ Hop0) as Hh0.
  assert (B : st_busy (dv_st d0') = true).
  { destruct (shadow_history _ _ _ _ Henv (foperated_history _ _ _ _ _ H0)) as (tr & _ & Hh).
    apply foperated_last in H as (d1 & H1 & _ & _ & _ & Ho & _). rewrite (foperated_det _ _ _ _ _ _ H0 H1) in *. cbn [foperate] in Ho.
    rewrite <- (near_busy _ _ (akin_near _ _ A0)). destruct (press_once U d0 b) as [(d2 & K & _)|(e & at_ & Hu & _ & K & _)]; [rewrite K in Ho; injection Ho as _ <-; discriminate An|].
    destruct (K (fstep E F)) as (d2 & K1 & _). rewrite K1 in Ho. injection Ho as _ <-.
    unfold answered in An. cbn [snd existsb] in An. rewrite orb_false_r in An. eapply menu_silent; eassumption. }
  destruct (screen_inv_holds E key _ _ Henv Hh0) as [_ Si]. rewrite B in Si. destruct Si as (q & pages & So & _).
  destruct (was_put _ _ _ _ _ _ _ _ _ Henv Hop0 So) as (k1 & k2 & Eq & P & St). destruct (back_put _ _ _ _ _ _ _ _ _ _ _ _ Henv M0 Eq P St) as (l1 & l2 & El & P' & S' & _).
  exists d0, l1, l2, (st_ui (dv_st d0')), (st_flow (dv_st d0')), pages. do 4 (split; [assumption|]).
  inversion S as [F0 b0 os0|F0 e|F0 e e' outs Se Sc|F0 e e' s s' Hc Hf|F0 b0 e s l0 Hc Hf]; subst; [|right; eauto 6].
  left. rewrite Eq in Hop, Hop0. pose proof (decides _ _ _ _ _ _ _ _ _ Henv _ _ _ P St Hop0 Hop An) as D. unfold decision in *.
  rewrite (akin_displayed _ _ _ _ _ Henv Hh0 A0). exact D.
Qed.
