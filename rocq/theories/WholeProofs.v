(** The whole device does what the device of SpecButtons does. *)
From Coq Require Import String.
From Verif Require Import Lib Env TxTable UiFlow P2pkOp App SpecTx SpecTrace SpecApdu SpecScreen SpecSign SpecPages SpecDispatch SpecRules SpecRequest
  Moves TraceScreen TraceShow TraceAttest SessionProofs FrameRules DispatchProofs RequestProofs ReadApp SpecRaw Wire SpecWire WireProofs Restart SpecRestart RestartProofs
  Buttons SpecButtons ButtonProofs ButtonRun Whole SpecWhole.
#[local] Arguments N.eqb : simpl never.
#[local] Arguments N.ltb : simpl never.
#[local] Arguments N.leb : simpl never.
#[local] Arguments N.sub : simpl never.
#[local] Arguments blen : simpl never.

(** ** States that differ in the counters of the computed pages, at a menu *)
Inductive near : state -> state -> Prop :=
| near_same : forall st, near st st
| near_idle : forall c k m x u f d d', at_menu u -> near (mk_state c k m false x u f d) (mk_state c k m false x u f d').
Definition rnear (x y : result) : Prop := snd x = snd y /\ near (fst x) (fst y).
Ltac done_near := split; [reflexivity|]; cbn [fst]; unfold handler_err; fields; first [apply near_same | apply near_idle; assumption].
Ltac nbranch :=
  match goal with
  | |- rnear (if ?b then _ else _) _ => destruct b
  | |- rnear (match ?x with _ => _ end) _ => destruct x
  end.
Ltac nears := repeat (fields; first [done_near | nbranch]).
Section Near.
  Variable E : env.
  Variables (c : N) (k : bytes) (m : cmd) (x : ctx) (u : ui_kind) (f : flow) (d d' : dyn).
  Hypothesis Hu : at_menu u.
  Let s1 := mk_state c k m false x u f d.
  Let s2 := mk_state c k m false x u f d'.
  Lemma epk_near : forall data h, rnear (handler_epk E s1 data h) (handler_epk E s2 data h).
  Proof. intros. subst s1 s2. unfold handler_epk. nears. Qed.
  Lemma da_near : forall data dp h, rnear (handler_da E s1 data dp h) (handler_da E s2 data dp h).
  Proof. intros. subst s1 s2. unfold handler_da. nears. Qed.
  Lemma attest_near : forall data p1 p2 r, rnear (handler_attest E s1 data p1 p2 r) (handler_attest E s2 data p1 p2 r).
  Proof. intros. subst s1 s2. unfold handler_attest, attest_init, attest_box_call, check_box_finished, attest_get_frame. nears. Qed.
  Lemma sign_near : forall data p1 p2 r, rnear (handler_sign E s1 data p1 p2 r) (handler_sign E s2 data p1 p2 r).
  Proof. intros. subst s1 s2. unfold handler_sign, sign_init, sign_command, show_output_screen_if_needed, show_dynamic. nears. Qed.
  Lemma step_idle_near : forall e, rnear (step E s1 e) (step E s2 e).
  Proof.
    intros [cla ins p1 p2 data r| | | | | | | |]; cbn [step].
    1: { pose proof epk_near as A1. pose proof da_near as A2. pose proof attest_near as A3. pose proof sign_near as A4. subst s1 s2. unfold apdu_dispatcher.
      destruct (negb (cla =? 0xE0)); [done_near|]. repeat (first [apply A1 | apply A2 | apply A3 | apply A4 | done_near | nbranch]). }
    all: subst s1 s2; unfold ui_action, ui_path_both; fields; destruct Hu as [-> | ->]; cbn [has_pages]; try done_near.
    all: split; [reflexivity|]; cbn [fst]; fields; apply near_idle; unfold at_menu; auto.
  Qed.
End Near.
Lemma step_near : forall E st st' e, near st st' -> rnear (step E st e) (step E st' e).
Proof. intros E st st' e H. destruct H; [split; [reflexivity|constructor]|]. apply step_idle_near; assumption. Qed.
Lemma near_flow : forall st st', near st st' -> st_flow st = st_flow st'.
Proof. intros st st' []; reflexivity. Qed.
Lemma near_cell : forall st st' i, near st st' -> cell st i = cell st' i.
Proof. intros st st' i H. unfold cell. rewrite (near_flow _ _ H). reflexivity. Qed.
Lemma near_busy : forall st st', near st st' -> st_busy st = st_busy st'.
Proof. intros st st' []; reflexivity. Qed.

(** ** Flows with and without computed pages *)
Definition unpaged (s : screen) : Prop := s <> SC_UPPER /\ s <> SC_PAGE /\ s <> SC_LOWER.
Definition plain (f : flow) : Prop := Forall unpaged f.
Ltac unp := first [constructor | (unfold unpaged; split; [discriminate|split; discriminate])].
Lemma plain_cell : forall st i, plain (st_flow st) -> unpaged (cell st i).
Proof.
  intros st i H. unfold cell. destruct (Nat.lt_ge_cases i (length (st_flow st))) as [L|L].
  - unfold plain in H. rewrite Forall_forall in H. apply H, nth_In, L.
  - rewrite nth_overflow by exact L. repeat split; discriminate.
Qed.
Lemma idle_plain : forall E key tr st, env_ok E -> history E key tr st -> st_busy st = false -> plain (st_flow st).
Proof.
  intros E key tr st Henv H B. destruct (menus_hold _ _ _ _ Henv H B) as (h & Hh & F).
  assert (Uh : unpaged h) by (destruct Hh as [-> |[-> |(t & _ & ->)]]; repeat split; discriminate).
  destruct F as [[_ ->]|[_ ->]]; unfold menu_tail, about_tail; constructor; try exact Uh; repeat (constructor; [repeat split; discriminate|]); constructor.
Qed.
Lemma flow_cases : forall E key tr st, env_ok E -> history E key tr st -> plain (st_flow st) \/ (st_busy st = true /\ exists t, st_flow st = paged_flow t).
Proof.
  intros E key tr st Henv H. destruct (st_busy st) eqn:B; [|left; eapply idle_plain; eassumption].
  destruct (screen_inv_holds E key tr st Henv H) as [_ S]. rewrite B in S. destruct S as (e & pages & So & _).
  destruct (question_form _ _ _ _ _ _ _ _ Henv H So) as [(_ & _ & body & -> & Hs)|(_ & Hf & _)]; [left|right; split; [reflexivity|exact Hf]].
  apply Forall_app. split.
  - eapply Forall_impl; [|exact Hs]. intros [] K; try destruct K; repeat split; discriminate.
  - repeat (constructor; [repeat split; discriminate|]). constructor.
Qed.

(** ** Devices that differ in what is left of earlier pages *)
Definition settled (f : flow) (p : place) : Prop :=
  plain f \/ match p with P_AT i _ => i = 0%nat \/ i = 4%nat \/ i = 5%nat | P_OFF => True | _ => False end.
Inductive akin : device -> device -> Prop :=
| akin_same : forall d, akin d d
| akin_differ : forall st st' pg pg' p, near st st' -> settled (st_flow st) p -> akin (mk_device st pg p) (mk_device st' pg' p).
Lemma card_page : forall pg pg' s, s <> SC_PAGE -> card_of pg s = card_of pg' s.
Proof. intros pg pg' [] H; try reflexivity. congruence. Qed.
Lemma paged_cell : forall st t i, st_flow st = paged_flow t -> i = 0%nat \/ i = 4%nat \/ i = 5%nat -> cell st i <> SC_PAGE.
Proof. intros st t i F H. unfold cell. rewrite F. destruct H as [-> |[-> | ->]]; discriminate. Qed.
Lemma akin_card : forall E key tr st st' pg pg' i q, env_ok E -> history E key tr st' -> near st st' -> settled (st_flow st) (P_AT i q) ->
  card_of pg (cell st i) = card_of pg' (cell st' i).
Proof.
  intros E key tr st st' pg pg' i q Henv H Nr S. rewrite (near_cell _ _ i Nr). apply card_page. rewrite (near_flow _ _ Nr) in S.
  destruct S as [S|S]; [apply plain_cell, S|]. destruct (flow_cases _ _ _ _ Henv H) as [P|(_ & t & F)]; [apply plain_cell, P|]. eapply paged_cell; eassumption.
Qed.
Lemma akin_displayed : forall E key tr d d', env_ok E -> history E key tr (dv_st d') -> akin d d' -> displayed d = displayed d'.
Proof.
  intros E key tr d d' Henv H A. destruct A as [d|st st' pg pg' p Nr S]; [reflexivity|]. cbn [dv_st] in H. unfold displayed. cbn [dv_at dv_page dv_st].
  destruct p as [i q|c i q|i q|]; try reflexivity.
  - rewrite (akin_card E key tr st st' pg pg' i q Henv H Nr S). reflexivity.
  - destruct S as [S|[]]. rewrite (akin_card E key tr st st' pg pg' i q Henv H Nr (or_introl S)). reflexivity.
Qed.

(** A callback leaves a plain flow plain. *)
Lemma after_settled : forall E key tr st e outs p, env_ok E -> history E key (tr ++ [(e, outs)]) st -> p = P_AT 0 0 -> settled (st_flow st) p.
Proof. intros E key tr st e outs p Henv H ->. destruct (flow_cases _ _ _ _ Henv H) as [P|_]; [left; exact P|right; left; reflexivity]. Qed.
Lemma path_settled : forall E key tr st st1 outs p, env_ok E -> history E key tr st -> history E key (tr ++ [(UiPathBoth, outs)]) st1 -> plain (st_flow st) -> settled (st_flow st1) p.
Proof.
  intros E key tr st st1 outs p Henv H H1 P. left. destruct (st_busy st1) eqn:B1; [|eapply idle_plain; eassumption].
  destruct (screen_inv_holds E key _ st1 Henv H1) as [_ S]. rewrite B1 in S. destruct S as (q & pages & So & _).
  assert (X : shown_by outs = None).
  { apply history_last in H1 as (st0 & _ & _ & _ & _ & M & _). inversion M; subst; try reflexivity; try (destruct b; discriminate); try (match goal with H : _ \/ _ |- _ => decompose [or and] H end; discriminate). }
  pose proof So as So2. rewrite on_screen_snoc in So. unfold question_after in So. cbn [fst snd by_user] in So. rewrite X in So. destruct (true && responds outs); [discriminate So|].
  destruct (screen_state _ _ _ _ _ _ _ _ Henv H So) as (_ & _ & F & _). rewrite F in P. exact P.
Qed.

Lemma receive_akin : forall E key tr d d' e d1 os, env_ok E -> history E key tr (dv_st d') -> akin d d' -> by_user e = false -> event_ok e ->
  receive E d e = (d1, os) -> sound os -> exists d1', receive E d' e = (d1', os) /\ akin d1 d1'.
Proof.
  intros E key tr d d' e d1 os Henv H A Hu Hev R So. destruct A as [d|st st' pg pg' p Nr Se]; [exists d1; split; [exact R|constructor]|].
  cbn [dv_st] in H. unfold receive in *. cbn [dv_at dv_st dv_page] in *.
  destruct (step_near E st st' e Nr) as [Eo Nr1]. destruct (step E st e) as [st1 outs] eqn:S1, (step E st' e) as [st1' outs'] eqn:S1'. cbn [fst snd] in Eo, Nr1. subst outs'.
  assert (Hp : p = P_OFF \/ p <> P_OFF) by (destruct p; [right|right|right|left]; congruence). destruct Hp as [-> |Hp].
  { exists (mk_device st' pg' P_OFF). split; [congruence|]. assert (d1 = mk_device st pg P_OFF) as -> by congruence. constructor; assumption. }
  assert (R' : (mk_device st1 pg (if existsb (fun o => match o with OShow _ _ _ => true | _ => false end) outs then P_AT 0 0 else kept (mk_device st pg p) st1), [(e, outs)]) = (d1, os)).
  { destruct p; try exact R. congruence. } clear R.
  assert (os = [(e, outs)]) as -> by congruence. assert (d1 = mk_device st1 pg (if existsb (fun o => match o with OShow _ _ _ => true | _ => false end) outs then P_AT 0 0 else kept (mk_device st pg p) st1)) as -> by congruence.
  clear R'. apply sound_one in So as [Nd Nu]. assert (H1 : history E key (tr ++ [(e, outs)]) st1') by (econstructor; eassumption).
  exists (mk_device st1' pg' (if existsb (fun o => match o with OShow _ _ _ => true | _ => false end) outs then P_AT 0 0 else kept (mk_device st' pg' p) st1')).
  split; [destruct p; try reflexivity; congruence|].
  assert (Kp : kept (mk_device st pg p) st1 = kept (mk_device st' pg' p) st1').
  { unfold kept. cbn [dv_at dv_st dv_page]. destruct p as [i q|c i q|i q|]; try reflexivity. rewrite (akin_card E key tr st st' pg pg' i q Henv H Nr Se), (near_cell _ _ i Nr), (near_cell _ _ i Nr1). reflexivity. }
  rewrite <- Kp. constructor; [exact Nr1|].
  destruct (existsb _ outs) eqn:Ex.
  { rewrite (near_flow _ _ Nr1). eapply after_settled; [exact Henv|exact H1|reflexivity]. }
  destruct (st_busy st') eqn:B.
  - destruct (host_step_busy _ _ _ _ _ B Hu S1') as (-> & _). assert (Bs : st_busy st = true) by (rewrite (near_busy _ _ Nr); exact B). destruct (host_step_busy _ _ _ _ _ Bs Hu S1) as (-> & _).
    pose proof (kept_same (mk_device st pg p)) as K. cbn [dv_st dv_at] in K. rewrite K. exact Se.
  - left. rewrite (near_flow _ _ Nr1). destruct (st_busy st1') eqn:B1; [|eapply idle_plain; eassumption]. exfalso.
    destruct (screen_inv_holds E key _ st1' Henv H1) as [_ S]. rewrite B1 in S. destruct S as (q & pages & So & _). rewrite on_screen_snoc in So. unfold question_after in So. cbn [fst snd] in So.
    destruct (screen_inv_holds E key _ st' Henv H) as [_ S0]. rewrite B in S0. rewrite S0 in So.
    assert (X : shown_by outs = None). { clear - Ex. induction outs as [|o l IH]; [reflexivity|]. destruct o; try discriminate Ex; apply IH; exact Ex. }
    rewrite X in So. destruct (by_user e && responds outs); discriminate So.
Qed.

Lemma arrive_plain : forall E U st pg i fw, plain (st_flow st) -> arrive E U st pg i fw = (land U st pg i fw, []).
Proof. intros E U st pg i fw P. unfold arrive. destruct (plain_cell st i P) as (K1 & _ & K3). destruct (cell st i); congruence || reflexivity. Qed.
Lemma land_akin : forall U st st' pg pg' i fw, near st st' -> plain (st_flow st) -> akin (land U st pg i fw) (land U st' pg' i fw).
Proof.
  intros U st st' pg pg' i fw Nr P. unfold land. rewrite (card_page pg' pg (cell st' i)).
  - rewrite (near_cell _ _ i Nr). constructor; [exact Nr|left; exact P].
  - rewrite <- (near_cell _ _ i Nr). apply plain_cell, P.
Qed.
Definition matches (x y : device * list obs) : Prop := snd x = snd y /\ akin (fst x) (fst y).
Lemma matches_place : forall st st' pg pg' p os, near st st' -> plain (st_flow st) -> matches (mk_device st pg p, os) (mk_device st' pg' p, os).
Proof. intros. split; [reflexivity|]. constructor; [assumption|left; assumption]. Qed.
Lemma arrive_matches : forall E U st st' pg pg' i fw, near st st' -> plain (st_flow st) -> matches (arrive E U st pg i fw) (arrive E U st' pg' i fw).
Proof. intros E U st st' pg pg' i fw Nr P. rewrite !arrive_plain by (rewrite <- ?(near_flow _ _ Nr); exact P). split; [reflexivity|]. apply land_akin; assumption. Qed.
Lemma fire_matches : forall E key tr st st' pg pg' p e at_, env_ok E -> history E key tr st' -> near st st' -> by_user e = true ->
  sound (snd (fire E (mk_device st pg p) e at_)) -> at_ = P_AT 0 0 \/ e = UiPathBoth /\ plain (st_flow st) ->
  matches (fire E (mk_device st pg p) e at_) (fire E (mk_device st' pg' p) e at_).
Proof.
  intros E key tr st st' pg pg' p e at_ Henv H Nr Hu So K. unfold fire in *. cbn [dv_st dv_page] in *.
  destruct (step_near E st st' e Nr) as [Eo Nr1]. destruct (step E st e) as [st1 outs] eqn:S1, (step E st' e) as [st1' outs'] eqn:S1'. cbn [fst snd] in Eo, Nr1, So. subst outs'.
  apply sound_one in So as [Nd Nu]. assert (H1 : history E key (tr ++ [(e, outs)]) st1') by (econstructor; [exact H|apply user_event_ok; exact Hu|exact S1'|exact Nd]).
  split; [reflexivity|]. cbn [fst]. constructor; [exact Nr1|]. rewrite (near_flow _ _ Nr1). destruct K as [K|[-> P]]; [eapply after_settled; eassumption|]. eapply path_settled; [exact Henv|exact H|exact H1|].
  rewrite <- (near_flow _ _ Nr). exact P.
Qed.
Lemma validate_matches : forall E key tr st st' pg pg' p i q, env_ok E -> history E key tr st' -> near st st' -> plain (st_flow st) ->
  sound (snd (validate E (mk_device st pg p) i q)) ->
  matches (validate E (mk_device st pg p) i q) (validate E (mk_device st' pg' p) i q).
Proof.
  intros E key tr st st' pg pg' p i q Henv H Nr P So. unfold validate in *. cbn [dv_st dv_page] in *. rewrite <- (near_cell _ _ i Nr).
  destruct (cell st i); try (apply matches_place; assumption); try (eapply fire_matches; [exact Henv|exact H|exact Nr|reflexivity|exact So|]; auto; fail).
  destruct (bytes_eqb title (str "About")); [eapply fire_matches; [exact Henv|exact H|exact Nr|reflexivity|exact So|]; auto|].
  destruct (bytes_eqb title (str "Back")); [eapply fire_matches; [exact Henv|exact H|exact Nr|reflexivity|exact So|]; auto|].
  apply matches_place; assumption.
Qed.
Lemma next_matches : forall E U st st' pg pg' p i, near st st' -> plain (st_flow st) -> matches (flow_next E U (mk_device st pg p) i) (flow_next E U (mk_device st' pg' p) i).
Proof.
  intros E U st st' pg pg' p i Nr P. unfold flow_next. cbn [dv_st dv_page]. rewrite <- (near_cell _ _ (S i) Nr). destruct (cell st (S i)); first [apply arrive_matches; assumption|apply matches_place; assumption].
Qed.
Lemma prev_matches : forall E U st st' pg pg' p i, near st st' -> plain (st_flow st) -> matches (flow_prev E U (mk_device st pg p) i) (flow_prev E U (mk_device st' pg' p) i).
Proof.
  intros E U st st' pg pg' p i Nr P. unfold flow_prev. cbn [dv_st dv_page]. destruct i as [|i]; [|apply arrive_matches; assumption]. rewrite <- (near_flow _ _ Nr), <- (near_cell _ _ _ Nr).
  destruct (cell st _); first [apply arrive_matches; assumption|apply matches_place; assumption].
Qed.
Lemma press_plain : forall E U key tr st st' pg pg' p b, env_ok E -> history E key tr st' -> near st st' -> plain (st_flow st) ->
  sound (snd (press E U (mk_device st pg p) b)) -> matches (press E U (mk_device st pg p) b) (press E U (mk_device st' pg' p) b).
Proof.
  intros E U key tr st st' pg pg' p b Henv H Nr P So. unfold press in *. cbn [dv_st dv_page dv_at] in *. destruct p as [i q|c i q|i q|]; try (apply matches_place; assumption).
  - replace (card_of pg' (cell st' i)) with (card_of pg (cell st i)) by (rewrite <- (near_cell _ _ i Nr); apply card_page, plain_cell, P). destruct b.
    + destruct q; [apply prev_matches; assumption|apply matches_place; assumption].
    + destruct (Nat.ltb _ _); [apply matches_place; assumption|apply next_matches; assumption].
    + destruct (_ && _); [apply matches_place; assumption|eapply validate_matches; eassumption].
  - destruct b.
    + destruct q; [apply prev_matches; assumption|apply matches_place; assumption].
    + destruct (Nat.ltb _ _); [apply matches_place; assumption|apply next_matches; assumption].
    + destruct (_ && _); [apply matches_place; assumption|eapply validate_matches; eassumption].
Qed.

(** A flow with computed pages, at one of its three fixed cards. *)
Lemma matches_here : forall st pg pg' i q os, i = 0%nat \/ i = 4%nat \/ i = 5%nat -> matches (mk_device st pg (P_AT i q), os) (mk_device st pg' (P_AT i q), os).
Proof. intros. split; [reflexivity|]. constructor; [constructor|right; assumption]. Qed.
Lemma press_paged : forall E U key tr st pg pg' i q b t, env_ok E -> history E key tr st -> st_flow st = paged_flow t -> i = 0%nat \/ i = 4%nat \/ i = 5%nat ->
  sound (snd (press E U (mk_device st pg (P_AT i q)) b)) -> matches (press E U (mk_device st pg (P_AT i q)) b) (press E U (mk_device st pg' (P_AT i q)) b).
Proof.
  intros E U key tr st pg pg' i q b t Henv H F Hi So.
  assert (C : forall j, cell st j = nth j (paged_flow t) SC_END) by (intro j; unfold cell; rewrite F; reflexivity).
  assert (Ca : forall g, card_of g (cell st i) = card_of pg (cell st i)) by (intro g; apply card_page; eapply paged_cell; eassumption).
  assert (Ex : match card_of pg (cell st i) with Some c => extra U c | None => 0%nat end = 0%nat).
  { rewrite C. destruct Hi as [-> |[-> | ->]]; reflexivity. }
  assert (Nx : forall e st1 outs, step E st e = (st1, outs) -> by_user e = true -> sound [(e, outs)] -> cell st1 0 <> SC_PAGE).
  { intros e st1 outs S1 Hu So1. apply sound_one in So1 as [Nd _].
    assert (H1 : history E key (tr ++ [(e, outs)]) st1) by (econstructor; [exact H|apply user_event_ok; exact Hu|exact S1|exact Nd]).
    destruct (flow_cases _ _ _ _ Henv H1) as [P|(_ & t1 & F1)]; [apply plain_cell, P|eapply paged_cell; [exact F1|left; reflexivity]]. }
  assert (Up : forall fw, sound (snd (arrive E U st pg 1 fw)) -> matches (arrive E U st pg 1 fw) (arrive E U st pg' 1 fw)).
  { intros fw. unfold arrive. rewrite C. cbn [nth paged_flow]. destruct (step E st UiUpper) as [st1 outs] eqn:S1. cbn [snd]. intro So1. split; [reflexivity|]. cbn [fst].
    destruct outs as [|[] [|]]; try (constructor; [constructor|right; left; reflexivity]); [|constructor].
    unfold land. cbn [Nat.leb Nat.sub]. rewrite (card_page pg' pg); [constructor; [constructor|right; left; reflexivity]|]. eapply Nx; [exact S1|reflexivity|exact So1]. }
  assert (Lo : forall fw, matches (arrive E U st pg 3 fw) (arrive E U st pg' 3 fw)).
  { intros fw. unfold arrive. rewrite C. cbn [nth paged_flow]. destruct (step E st UiLower) as [st1 outs] eqn:S1. split; [reflexivity|]. cbn [fst].
    destruct outs as [|[] [|]]; try (constructor; [constructor|right; left; reflexivity]); [|constructor].
    unfold land. constructor; [constructor|right; right; left; reflexivity]. }
  assert (Ar : forall j fw, j = 0%nat \/ j = 4%nat \/ j = 5%nat -> matches (arrive E U st pg j fw) (arrive E U st pg' j fw)).
  { intros j fw Hj. unfold arrive. rewrite C. destruct Hj as [-> |[-> | ->]]; cbn [nth paged_flow]; (split; [reflexivity|]); unfold land; cbn [fst]; rewrite !C; cbn [nth paged_flow card_of];
      (apply akin_differ; [apply near_same|right; tauto]). }
  unfold press in *. cbn [dv_st dv_page dv_at] in *. rewrite (Ca pg'). rewrite !Ex in So |- *. change (Nat.ltb q 0) with false in *. cbn [andb] in So |- *. destruct b.
  - destruct q as [|q]; [|apply matches_here; exact Hi]. unfold flow_prev in *. cbn [dv_st dv_page] in *. rewrite F, ?C in *. destruct Hi as [-> |[-> | ->]]; cbn [length paged_flow Nat.sub nth] in *; rewrite ?C in *; cbn [nth paged_flow] in *; first [apply Ar; tauto|apply Lo].
  - unfold flow_next in *. cbn [dv_st dv_page] in *. rewrite ?C in *. destruct Hi as [-> |[-> | ->]]; cbn [nth paged_flow] in *; first [apply Up; exact So|apply Ar; tauto].
  - unfold validate in *. cbn [dv_st dv_page] in *. rewrite ?C in *. destruct Hi as [-> |[-> | ->]]; cbn [nth paged_flow] in *; first [apply matches_here; tauto|eapply fire_matches; [exact Henv|exact H|constructor|reflexivity|exact So|left; reflexivity]].
Qed.
Lemma press_akin : forall E U key tr d d' b d1 os, env_ok E -> history E key tr (dv_st d') -> akin d d' ->
  press E U d b = (d1, os) -> sound os -> exists d1', press E U d' b = (d1', os) /\ akin d1 d1'.
Proof.
  intros E U key tr d d' b d1 os Henv H A R So. destruct A as [d|st st' pg pg' p Nr Se]; [exists d1; split; [exact R|constructor]|]. cbn [dv_st] in H.
  assert (M : matches (press E U (mk_device st pg p) b) (press E U (mk_device st' pg' p) b)).
  { assert (So' : sound (snd (press E U (mk_device st pg p) b))) by (rewrite R; exact So).
    destruct (flow_cases _ _ _ _ Henv H) as [P|(B & t & F)]; [eapply press_plain; try eassumption; rewrite (near_flow _ _ Nr); exact P|].
    destruct Nr as [st|]; [|discriminate B]. destruct Se as [Se|Se].
    - eapply press_plain; try eassumption. constructor.
    - destruct p as [i q|c i q|i q|]; [eapply press_paged; eassumption|destruct Se|destruct Se|].
      split; [reflexivity|]. apply akin_differ; [constructor|right; exact I]. }
  rewrite R in M. destruct (press E U (mk_device st' pg' p) b) as [d1' os']. destruct M as [M1 M2]. cbn [fst snd] in *. subst os'. eauto.
Qed.
Lemma operate_akin : forall E U key tr d d' a d1 os, env_ok E -> history E key tr (dv_st d') -> akin d d' -> action_ok a ->
  operate E U d a = (d1, os) -> sound os -> exists d1', operate E U d' a = (d1', os) /\ akin d1 d1'.
Proof.
  intros E U key tr d d' a d1 os Henv H A Ha R So. destruct a as [e|b]; cbn [operate] in *; [destruct Ha; eapply receive_akin; eassumption|eapply press_akin; eassumption].
Qed.

(** ** Packets *)
Lemma send_screen : forall o outs io, (forall b s, o <> OResp b s) -> In o outs -> In (Screen o) (snd (send_all outs io)).
Proof.
  intros o. induction outs as [|x t IH]; intros io No K; [destruct K|]. destruct x as [b s| | | |]; cbn [send_all].
  1: { destruct K as [K|K]; [destruct (No b s); congruence|]. destruct (io_send b s io) as [io1 pk]. specialize (IH io1 No K). destruct (send_all t io1). right. exact IH. }
  all: destruct K as [<-|K]; [destruct (send_all t io); left; reflexivity|]; specialize (IH io No K); destruct (send_all t io); right; exact IH.
Qed.
Lemma whole_operate : forall E U w a w' l, act_ok a -> blen (wh_io w) = 260 -> whole_step E U w a = (w', l) ->
  exists os io0, blen io0 = 260 /\ operate E U (wh_dev w) (understood a) = (wh_dev w', os) /\ send_all (concat (map snd os)) io0 = (wh_io w', l).
Proof.
  intros E U [d io] a w' l Ha Hi H. unfold whole_step in H. cbn [wh_dev wh_io] in *. destruct a as [packet r|b]; cbn [understood operate act_ok] in *.
  - pose proof (raw_heard E (dv_st d) (Receive packet r) io Ha) as R. cbn [heard] in R. unfold receive.
    assert (Hp : dv_at d = P_OFF \/ dv_at d <> P_OFF) by (destruct (dv_at d); [right|right|right|left]; congruence). destruct Hp as [Hp|Hp].
    + rewrite Hp in *. exists [], io. split; [exact Hi|]. assert (w' = mk_whole d io) as -> by congruence. assert (l = []) as -> by congruence. split; reflexivity.
    + rewrite R in H. destruct (step E (dv_st d) (command_of packet r)) as [st outs] eqn:S1.
      assert (H2 : (let '(io1, l0) := send_all outs (write_over packet io) in
        (mk_whole (mk_device st (dv_page d) (if existsb (fun o => match o with OShow _ _ _ => true | _ => false end) outs then P_AT 0 0 else kept d st)) io1, l0)) = (w', l)) by (destruct (dv_at d); congruence).
      clear H. exists [(command_of packet r, outs)], (write_over packet io). split; [apply write_over_len; [exact Hi|apply Ha]|].
      cbn [map snd concat]. rewrite app_nil_r. destruct (send_all outs (write_over packet io)) as [io1 l0].
      assert (w' = mk_whole (mk_device st (dv_page d) (if existsb (fun o => match o with OShow _ _ _ => true | _ => false end) outs then P_AT 0 0 else kept d st)) io1) as -> by congruence.
      assert (l0 = l) as -> by congruence. split; [destruct (dv_at d); try reflexivity; congruence|reflexivity].
  - destruct (press E U d b) as [d1 os]. exists os, io. split; [exact Hi|]. destruct (send_all _ io) as [io1 l0]. assert (w' = mk_whole d1 io1) as -> by congruence. assert (l0 = l) as -> by congruence. split; reflexivity.
Qed.
Lemma operate_single : forall E U d a d' os, operate E U d a = (d', os) -> os = [] \/ exists e outs, os = [(e, outs)].
Proof.
  intros E U d [e|b] d' os H; cbn [operate] in H.
  - destruct (receive_shape _ _ _ _ _ H) as [(_ & -> & _)|(outs & _ & -> & _)]; eauto.
  - destruct (press_single _ _ _ _ _ _ H) as [[-> _]|(e & outs & -> & _)]; eauto.
Qed.
Lemma understood_ok : forall a, act_ok a -> action_ok (understood a).
Proof.
  intros [packet r|b] H; cbn [understood action_ok act_ok] in *; [|exact I]. split; [|exact (heard_ok _ H)].
  unfold command_of. destruct packet as [|? [|? [|? [|? [|? ?]]]]]; try reflexivity. destruct (_ =? _); reflexivity.
Qed.
Lemma tells_of_length : forall E U key tr l, tells_of E U key tr l -> length l = length tr.
Proof. intros E U key tr l (K & _). apply (f_equal (@length _)) in K. rewrite !map_length in K. auto. Qed.

Lemma run_told : forall E U mem page io key tr w, env_ok E -> blen io = 260 -> goes_on E U (power_on mem page io key) tr w ->
  exists l d, operated E U key l d /\ akin (wh_dev w) d /\ blen (wh_io w) = 260 /\ tells_of E U key tr l.
Proof.
  intros E U mem page io key tr w Henv Hi H. induction H as [|tr w a w' l H IH Ha Hs Nd Nu].
  - exists [], (switched_on key). split; [constructor|]. split.
    + unfold power_on, switched_on. cbn [wh_dev]. apply akin_differ; [apply near_idle; left; reflexivity|]. right. left. reflexivity.
    + split; [exact Hi|]. split; [reflexivity|]. split; [reflexivity|]. intros [|n] m K; discriminate K.
  - destruct IH as (ds & d & Hop & A & Lio & T). destruct (whole_operate _ _ _ _ _ _ Ha Lio Hs) as (os & io0 & L0 & Ho & Hsend).
    pose proof (operated_history _ _ _ _ _ Hop) as Hh.
    assert (So : sound os).
    { destruct (operate_single _ _ _ _ _ _ Ho) as [-> |(e & outs & ->)]; [constructor|]. apply sound_one. cbn [map snd concat] in Hsend. rewrite app_nil_r in Hsend. split; intro K.
      - apply Nd. pose proof (send_screen ODiverge outs io0 ltac:(discriminate) K) as Q. rewrite Hsend in Q. exact Q.
      - apply Nu. pose proof (send_screen OUb outs io0 ltac:(discriminate) K) as Q. rewrite Hsend in Q. exact Q. }
    destruct (operate_akin E U key (happened ds) (wh_dev w) d (understood a) (wh_dev w') os Henv Hh A (understood_ok _ Ha) Ho So) as (d1 & Ho' & A').
    assert (Hop' : operated E U key (ds ++ [(understood a, os)]) d1) by (econstructor; [exact Hop|apply understood_ok; exact Ha|exact Ho'|exact So]).
    pose proof (operated_history _ _ _ _ _ Hop') as Hh'. rewrite happened_snoc in Hh'.
    assert (Sz : forall b s, In (OResp b s) (concat (map snd os)) -> (length b + 2 <= 260)%nat).
    { destruct (operate_single _ _ _ _ _ _ Ho) as [-> |(e & outs & ->)]; [intros b s []|]. intros b s K. cbn [map snd concat] in K. rewrite app_nil_r in K. apply (proj2 (answers _ _ _ _ _ _ Henv Hh') b s K). }
    destruct (send_all_ok _ io0 L0 Sz) as (io' & L' & Q). rewrite Hsend in Q. assert (wh_io w' = io') as Ei by congruence. assert (l = map on_the_wire (concat (map snd os))) as -> by congruence.
    exists (ds ++ [(understood a, os)]), d1. split; [exact Hop'|]. split; [exact A'|]. split; [rewrite Ei; exact L'|].
    pose proof (tells_of_length _ _ _ _ _ T) as Ln. destruct T as (T1 & T2 & T3). split; [rewrite !map_app; cbn [map fst]; f_equal; exact T1|]. split; [rewrite !map_app; cbn [map]; f_equal; exact T2|].
    intros n m K. destruct (Nat.lt_ge_cases n (length tr)) as [Lt|Ge].
    + rewrite nth_error_app1 in K by exact Lt. destruct (T3 n m K) as (d2 & O2 & S2). exists d2. split; [|exact S2]. rewrite firstn_app. replace (S n - length ds)%nat with 0%nat by lia. cbn [firstn]. rewrite app_nil_r. exact O2.
    + rewrite nth_error_app2 in K by exact Ge. destruct (n - length tr)%nat eqn:En; [|destruct n0; discriminate K]. cbn [nth_error] in K. assert (m = mk_moment a (packets (map on_the_wire (concat (map snd os)))) (displayed (wh_dev w'))) as -> by congruence.
      exists d1. split; [rewrite firstn_all2 by (rewrite app_length; cbn [length]; lia); exact Hop'|]. cbn [mo_shown]. eapply akin_displayed; [exact Henv| |exact A']. exact Hh'.
Qed.
Lemma lifetime_runs : forall E U runs key tr, lifetime E U runs -> In (key, tr) runs -> exists mem page io w, blen io = 260 /\ goes_on E U (power_on mem page io key) tr w.
Proof.
  intros E U runs key tr H. induction H as [|runs mem page io key0 tr0 w H IH L G]; intro K; [destruct K|]. apply in_app_or in K as [K|[K|[]]]; [exact (IH K)|]. injection K as <- <-. eauto 6.
Qed.
Theorem life_told : forall E U runs key tr, env_ok E -> lifetime E U runs -> In (key, tr) runs -> exists l d, operated E U key l d /\ tells_of E U key tr l.
Proof.
  intros E U runs key tr Henv H K. destruct (lifetime_runs _ _ _ _ _ H K) as (mem & page & io & w & L & G). destruct (run_told _ _ _ _ _ _ _ _ Henv L G) as (l & d & O & _ & _ & T). eauto.
Qed.

(** ** What a packet says about the run *)
Lemma operated_unique : forall E U key l l' d d', operated E U key l d -> operated E U key l' d' -> map fst l = map fst l' -> l = l'.
Proof.
  intros E U key l. induction l as [|[a os] l IH] using rev_ind; intros l' d d' H H' K.
  - destruct l'; [reflexivity|discriminate K].
  - destruct l' as [|[a' os'] l' _] using rev_ind; [destruct l; discriminate K|]. rewrite !map_app in K. cbn [map fst] in K. apply app_inj_tail in K as [K ->].
    apply operated_last in H as (d0 & H & _ & Ho & _), H' as (d0' & H' & _ & Ho' & _). pose proof (IH _ _ _ H H' K) as ->. assert (d0' = d0) as -> by (eapply operated_det; eassumption). congruence.
Qed.
Lemma tells_of_prefix : forall E U key a b l, tells_of E U key (a ++ b) l -> tells_of E U key a (firstn (length a) l).
Proof.
  intros E U key a b l (T1 & T2 & T3). repeat split.
  - pose proof (f_equal (firstn (length a)) T1) as Q. rewrite map_app, firstn_app, map_length, Nat.sub_diag, !firstn_map, firstn_all in Q. cbn [firstn] in Q. rewrite app_nil_r in Q. exact Q.
  - pose proof (f_equal (firstn (length a)) T2) as Q. rewrite map_app, firstn_app, map_length, Nat.sub_diag, !firstn_map, firstn_all in Q. cbn [firstn] in Q. rewrite app_nil_r in Q. exact Q.
  - intros n m K. assert (L : (n < length a)%nat) by (apply nth_error_Some; congruence). destruct (T3 n m) as (d & O & S1); [rewrite nth_error_app1; assumption|]. exists d. split; [|exact S1].
    rewrite firstn_firstn. rewrite Nat.min_l by lia. exact O.
Qed.
Theorem begins_told : forall E U runs key a b, env_ok E -> lifetime E U runs -> In (key, a ++ b) runs ->
  exists l d, operated E U key l d /\ tells_of E U key a l /\ forall l' d', operated E U key l' d' -> tells_of E U key a l' -> l' = l.
Proof.
  intros E U runs key a b Henv H K. destruct (life_told _ _ _ _ _ Henv H K) as (l & d & O & T).
  assert (P : exists d0, operated E U key (firstn (length a) l) d0) by (apply (operated_prefix E U key _ (skipn (length a) l) d); rewrite firstn_skipn; exact O).
  destruct P as (d0 & O0). pose proof (tells_of_prefix _ _ _ _ _ _ T) as T0. exists (firstn (length a) l), d0. do 2 (split; [assumption|]).
  intros l' d' O' T'. eapply operated_unique; [exact O'|exact O0|]. destruct T' as (T1 & _), T0 as (T2 & _). congruence.
Qed.
Lemma sw_ok_num : forall s, sw_num s / 256 = 0x90 -> sw_num s mod 256 = 0 -> s = SW_OK.
Proof. intros s A B. apply sw_num_inj. pose proof (N.div_mod' (sw_num s) 256) as K. rewrite A, B in K. rewrite K. reflexivity. Qed.
(** A packet of [n] + 2 bytes with the status "OK" is the answer of [n] bytes of a single event. *)
Lemma packet_answer : forall E U runs key a m b p l d (n : nat), env_ok E -> lifetime E U runs -> In (key, a ++ m :: b) runs -> operated E U key l d -> tells_of E U key a l ->
  In p (mo_sent m) -> length p = (n + 2)%nat -> skipn n p = [0x90; 0] ->
  exists e d', operated E U key (l ++ [(understood (mo_act m), [(e, [OResp (firstn n p) SW_OK])])]) d' /\ length (firstn n p) = n.
Proof.
  intros E U runs key a m b p l d n Henv H K O T Hin Ln Sk.
  replace (a ++ m :: b) with ((a ++ [m]) ++ b) in K by (rewrite <- app_assoc; reflexivity). destruct (begins_told _ _ _ _ _ _ Henv H K) as (l1 & d1 & O1 & T1 & _).
  pose proof (tells_of_length _ _ _ _ _ T1) as L1. destruct l1 as [|[ac os] l1 _] using rev_ind; [rewrite app_length in L1; cbn in L1; lia|].
  pose proof (tells_of_prefix _ _ _ _ _ _ T1) as T2. assert (Ll : length l1 = length a) by (rewrite !app_length in L1; cbn in L1; lia).
  rewrite <- Ll, firstn_app, Nat.sub_diag, firstn_all in T2. cbn [firstn] in T2. rewrite app_nil_r in T2.
  destruct (operated_last _ _ _ _ _ _ _ O1) as (d0 & O0 & _ & Ho & _).
  assert (l1 = l) as ->. { eapply operated_unique; [exact O0|exact O|]. destruct T as (T3 & _), T2 as (T4 & _). congruence. }
  destruct T1 as (T1 & T1' & _). rewrite !map_app in T1, T1'. cbn [map fst] in T1, T1'. apply app_inj_tail in T1 as [_ <-], T1' as [_ Q]. rewrite Q in Hin.
  pose proof (operated_history _ _ _ _ _ O1) as Hh. rewrite happened_snoc in Hh. unfold answer_packets in Hin. cbn [snd] in Hin.
  destruct (operate_single _ _ _ _ _ _ Ho) as [-> |(e & outs & ->)]; [destruct Hin|]. cbn [map snd concat] in Hin. rewrite app_nil_r in Hin.
  unfold packets in Hin. apply in_flat_map in Hin as (o & Hm & Hp). apply in_map_iff in Hm as (x & <- & Hx). destruct x as [bb s| | | |]; cbn [on_the_wire] in Hp; [|destruct Hp..].
  destruct Hp as [<-|[]]. unfold packet_of in *. rewrite app_length in Ln. cbn [length] in Ln. assert (Lb : length bb = n) by lia. subst n.
  rewrite skipn_app, skipn_all, Nat.sub_diag in Sk. cbn [skipn app] in Sk. injection Sk as S1 S2. pose proof (sw_ok_num s S1 S2) as ->. rewrite firstn_app, firstn_all, Nat.sub_diag. cbn [firstn]. rewrite app_nil_r.
  pose proof (proj1 (answers _ _ _ _ _ _ Henv Hh)) as L. destruct outs as [|o [|]]; [destruct Hx| |cbn in L; lia]. destruct Hx as [->|[]]. eauto.
Qed.

Lemma cut_at : forall A (l : list A) n x, nth_error l n = Some x -> firstn n l ++ x :: skipn (S n) l = l.
Proof. intros A l. induction l as [|y l IH]; intros [|n] x K; try discriminate K; [injection K as ->; reflexivity|]. cbn [firstn app]. f_equal. apply IH, K. Qed.
(** As [was_put], with the command that put the question. *)
Lemma was_put_by : forall E U key l d q k f pages, env_ok E -> operated E U key l d -> on_screen (happened l) = Some (q, k, f, pages) ->
  exists l1 l2, l = l1 ++ l2 /\ (exists l0, l1 = l0 ++ [(Host q, [(q, [OShow k f pages])])]) /\ still l2.
Proof.
  intros E U key l d q k f pages Henv. revert d. induction l as [|[a os] l IH] using rev_ind; intros d H Ho; [discriminate|].
  pose proof (operated_history _ _ _ _ _ H) as Hh.
  apply operated_last in H as (d0 & H0 & Ha & Hop & Hso). rewrite happened_snoc in Ho, Hh.
  destruct a as [e|b]; cbn [operate] in Hop.
  - assert (Keep : on_screen (happened l) = Some (q, k, f, pages) -> exists l1 l2, l ++ [(Host e, os)] = l1 ++ l2 /\ (exists l0, l1 = l0 ++ [(Host q, [(q, [OShow k f pages])])]) /\ still l2).
    { intros K. destruct (IH _ H0 K) as (l1 & l2 & -> & P & S2). exists l1, (l2 ++ [(Host e, os)]). split; [rewrite app_assoc; reflexivity|].
      split; [exact P|]. apply still_snoc. split; [exact S2|exact I]. }
    destruct (receive_shape _ _ _ _ _ Hop) as [(_ & -> & _)|(outs & _ & -> & _)]; [rewrite app_nil_r in Ho; auto|].
    rewrite on_screen_snoc in Ho. unfold question_after in Ho. cbn [fst snd] in Ho. destruct Ha as [Hu _]. rewrite Hu in Ho. cbn [andb] in Ho.
    destruct (shown_by outs) as [[[k' f'] pages']|] eqn:Es; [|auto].
    rewrite (show_only _ _ _ _ _ _ _ _ _ Hh Es). exists (l ++ [(Host e, [(e, [OShow k' f' pages'])])]), []. rewrite app_nil_r. split; [reflexivity|].
    split; [|constructor]. exists l. injection Ho as -> -> -> ->. reflexivity.
  - assert (Keep : answered (Press b, os) = false -> on_screen (happened l) = Some (q, k, f, pages) -> exists l1 l2, l ++ [(Press b, os)] = l1 ++ l2 /\ (exists l0, l1 = l0 ++ [(Host q, [(q, [OShow k f pages])])]) /\ still l2).
    { intros An K. destruct (IH _ H0 K) as (l1 & l2 & -> & P & S2). exists l1, (l2 ++ [(Press b, os)]). split; [rewrite app_assoc; reflexivity|].
      split; [exact P|]. apply still_snoc. split; [exact S2|exact An]. }
    destruct (press_single _ _ _ _ _ _ Hop) as [[-> _]|(e & outs & -> & Hu & Es)]; [rewrite app_nil_r in Ho; auto|].
    pose proof (RulesProofs.user_no_show _ _ _ _ _ _ Hh Hu) as Ns.
    rewrite on_screen_snoc in Ho. unfold question_after in Ho. cbn [fst snd] in Ho. rewrite Ns, Hu in Ho. cbn [andb] in Ho.
    destruct (responds outs) eqn:R; [discriminate|]. apply Keep; [|exact Ho]. unfold answered. cbn [snd existsb]. rewrite R. reflexivity.
Qed.
Lemma skipn_nth : forall A (l : list A) n i, nth_error (skipn n l) i = nth_error l (n + i).
Proof. intros A l. induction l as [|x l IH]; intros [|n] i; cbn [skipn plus]; try reflexivity; [destruct i; reflexivity|apply IH]. Qed.
Lemma still_silent : forall a l n, map (fun m => understood (mo_act m)) a = map fst l -> map mo_sent a = map answer_packets l -> still (skipn n l) ->
  Forall (fun m => match mo_act m with Presses _ => mo_sent m = [] | Arrives _ _ => True end) (skipn n a).
Proof.
  intros a l n T1 T2 S. apply Forall_forall. intros m Hin. apply In_nth_error in Hin as (i & Hi). rewrite skipn_nth in Hi.
  pose proof (map_nth_error (fun m => understood (mo_act m)) _ _ Hi) as K1. pose proof (map_nth_error mo_sent _ _ Hi) as K2. rewrite T1 in K1. rewrite T2 in K2.
  destruct (nth_error l (n + i)) as [x|] eqn:Q; [|apply nth_error_None in Q; assert (n + i < length (map fst l))%nat by (apply nth_error_Some; congruence); rewrite map_length in *; lia].
  pose proof (map_nth_error fst _ _ Q) as K3. pose proof (map_nth_error answer_packets _ _ Q) as K4. rewrite <- skipn_nth in Q. apply nth_error_In in Q.
  pose proof (proj1 (Forall_forall _ _) S _ Q) as Sx. cbv beta in Sx. destruct (mo_act m) as [pk r|b]; [exact I|]. cbn [understood] in K1. assert (fst x = Press b) as F by congruence. rewrite F in Sx.
  assert (mo_sent m = answer_packets x) as -> by congruence. unfold answered in Sx. unfold answer_packets. destruct x as [ac os]. cbn [snd] in *. clear - Sx.
  induction os as [|[e outs] os IH]; [reflexivity|]. cbn [existsb snd] in Sx. apply Bool.orb_false_iff in Sx as [S1 S2]. cbn [map snd concat]. rewrite map_app. unfold packets in *. rewrite flat_map_app, IH by exact S2.
  rewrite app_nil_r. clear - S1. induction outs as [|o outs IH]; [reflexivity|]. unfold responds in *. cbn [existsb] in S1. apply Bool.orb_false_iff in S1 as [S1 S2]. cbn [map flat_map]. rewrite IH by exact S2. destruct o; cbn in *; (reflexivity || discriminate).
Qed.
(** An approval is a press of both buttons on Approve. *)
Lemma approved_told : forall E U key a l ac outs d q k f pages, env_ok E -> operated E U key (l ++ [(ac, [(UiApprove, outs)])]) d -> tells_of E U key a l ->
  on_screen (happened l) = Some (q, k, f, pages) ->
  ac = Press BOTH /\ shown_last a (Some (C_APPROVE, 0%nat)) /\ read_all U a q f pages.
Proof.
  intros E U key a l ac outs d q k f pages Henv H T Ho. apply operated_last in H as (d0 & H0 & Ha & Hop & _).
  destruct (was_put_by _ _ _ _ _ _ _ _ _ Henv H0 Ho) as (l1 & l2 & -> & Hq & Hs). assert (Hput : put l1 k f pages) by (destruct Hq as (l0 & Hq); exists l0, q; exact Hq).
  assert (X : ac = Press BOTH /\ displayed d0 = Some (C_APPROVE, 0%nat)).
  { destruct ac as [e|b]; cbn [operate] in Hop.
    - exfalso. destruct (receive_shape _ _ _ _ _ Hop) as [(_ & K & _)|(outs' & _ & K & _)]; [discriminate|]. assert (e = UiApprove) by congruence. subst e. destruct Ha as [Ha _]. discriminate Ha.
    - assert (Nw : forall c i p, dv_at d0 <> P_WAS c i p).
      { destruct (question_run _ _ _ _ _ _ _ _ _ Henv Hput H0 Hs) as (_ & i & n & p & bs0 & _ & _ & Pl). intros x y z. destruct Pl as [[Pl _]|(Pl & _)]; congruence. }
      destruct (press_approve _ _ _ _ _ _ _ Hop Nw (or_introl eq_refl)) as (-> & p & Dp). split; [reflexivity|].
      destruct (question_cards _ _ _ _ _ _ _ _ _ Henv H0 Hput Hs) as (n & p' & c & Dp' & _ & L & _). rewrite Dp in Dp'. injection Dp' as <- <-. cbn [extra] in L.
      replace p with 0%nat in Dp by lia. exact Dp. }
  destruct X as [-> Dp]. split; [reflexivity|]. pose proof (tells_of_length _ _ _ _ _ T) as Ln. destruct Hq as (l0 & E1). assert (L1 : length l1 = S (length l0)) by (rewrite E1, app_length; cbn; lia).
  rewrite app_length in Ln. split.
  - destruct a as [|m a _] using rev_ind; [cbn in Ln; lia|]. exists a, m. split; [reflexivity|]. destruct T as (_ & _ & T). rewrite app_length in Ln. cbn [length] in Ln.
    destruct (T (length a) m) as (d1 & O1 & ->); [rewrite nth_error_app2, Nat.sub_diag by lia; reflexivity|]. rewrite firstn_all2 in O1 by (rewrite app_length; lia).
    assert (d1 = d0) as -> by (eapply operated_det; eassumption). exact Dp.
  - assert (exists m1, nth_error a (length l0) = Some m1) as (m1 & Nm). { destruct (nth_error a (length l0)) eqn:Q; [eauto|]. apply nth_error_None in Q. lia. }
    exists (firstn (length l0) a), m1, (skipn (S (length l0)) a). split; [symmetry; apply cut_at; exact Nm|].
    split; [destruct T as (T & _); pose proof (map_nth_error (fun m => understood (mo_act m)) _ _ Nm) as K; rewrite T, E1, <- app_assoc, map_app, nth_error_app2, map_length, Nat.sub_diag in K by (rewrite map_length; lia); cbn in K; congruence|].
    split; [destruct T as (_ & T & _); pose proof (map_nth_error mo_sent _ _ Nm) as K; rewrite T, E1, <- app_assoc, map_app, nth_error_app2, map_length, Nat.sub_diag in K by (rewrite map_length; lia); cbn in K; congruence|].
    split; [destruct T as (T1 & T2 & _); apply (still_silent _ (l1 ++ l2)); [exact T1|exact T2|]; rewrite <- L1, skipn_app, skipn_all, Nat.sub_diag; exact Hs|].
    assert (V : forall c p, seen E U key l1 l2 c p -> was_shown (m1 :: skipn (S (length l0)) a) c p).
    { intros c p (u & v & d1 & -> & O1 & D1). destruct T as (_ & _ & T). rewrite app_length in Ln.
      destruct (nth_error a (length l0 + length u)) as [m|] eqn:Q; [|apply nth_error_None in Q; lia]. destruct (T _ _ Q) as (d2 & O2 & S2). exists m. split.
      - destruct (length u) as [|n] eqn:Lu; [left; rewrite Nat.add_0_r in Q; congruence|]. right. replace (length l0 + S n)%nat with (S (length l0) + n)%nat in Q by lia.
        rewrite <- (firstn_skipn (S (length l0)) a) in Q. rewrite nth_error_app2 in Q by (rewrite firstn_length; lia). eapply nth_error_In. exact Q.
      - rewrite S2. replace (firstn (S (length l0 + length u)) (l1 ++ u ++ v)) with (l1 ++ u) in O2; [assert (d2 = d1) as -> by (eapply operated_det; eassumption); exact D1|].
        rewrite app_assoc, firstn_app. replace (S (length l0 + length u) - length (l1 ++ u))%nat with 0%nat by (rewrite app_length; lia). rewrite firstn_O, app_nil_r, firstn_all2 by (rewrite app_length; lia). reflexivity. }
    destruct (reads _ _ _ _ _ _ _ _ _ _ Henv Hput Hs H0 Dp) as [R|R]; [left; apply V, R|right].
    intros oc Hc. destruct (R oc Hc) as (c & -> & [-> |K]); eexists; (split; [reflexivity|]); [left; reflexivity|right]. intros p Lp. apply V, K, Lp.
Qed.

Lemma understood_press : forall a b, understood a = Press b -> a = Presses b.
Proof. intros [p r|c] b K; [discriminate K|]. cbn [understood] in K. congruence. Qed.
Theorem signature_told : forall E U runs key a m b p l d, env_ok E -> lifetime E U runs -> In (key, a ++ m :: b) runs -> operated E U key l d -> tells_of E U key a l ->
  In p (mo_sent m) -> length p = 58%nat -> skipn 56 p = [0x90; 0] ->
  mo_act m = Presses BOTH /\ shown_last a (Some (C_APPROVE, 0%nat)) /\
  exists q f pages, on_screen (happened l) = Some (q, U_STX_TX, f, pages) /\ read_all U a q f pages /\
    exists st, history E key (happened l ++ [(UiApprove, [OResp (firstn 56 p) SW_OK])]) st.
Proof.
  intros E U runs key a m b p l d Henv H K O T Hin Ln Sk. destruct (packet_answer _ _ _ _ _ _ _ _ _ _ 56 Henv H K O T Hin Ln Sk) as (e & d' & O' & Lb).
  pose proof (operated_history _ _ _ _ _ O') as Hh. rewrite happened_snoc in Hh.
  assert (Sg : signature (e, [OResp (firstn 56 p) SW_OK]) = Some (firstn 56 p)). { unfold signature. cbn [snd]. unfold blen. rewrite Lb. reflexivity. }
  destruct (signature_consent _ _ _ _ _ _ Henv Hh Sg) as (Fe & (q & f & pages & Ho) & _). cbn [fst] in Fe. subst e.
  destruct (approved_told _ _ _ _ _ _ _ _ _ _ _ _ Henv O' T Ho) as (A1 & A2 & A3). split; [apply understood_press; exact A1|]. split; [exact A2|]. exists q, f, pages. split; [exact Ho|]. split; [exact A3|]. eauto.
Qed.
Theorem key_told : forall E U runs key a m b p l d, env_ok E -> lifetime E U runs -> In (key, a ++ m :: b) runs -> operated E U key l d -> tells_of E U key a l ->
  In p (mo_sent m) -> length p = 67%nat -> skipn 65 p = [0x90; 0] ->
  (mo_act m = Presses BOTH /\ shown_last a (Some (C_APPROVE, 0%nat)) /\
   exists p1 data r f, on_screen (happened l) = Some (Apdu CLA INS_KEY p1 0 data r, U_EPK, f, []) /\ read_all U a (Apdu CLA INS_KEY p1 0 data r) f []) \/
  exists data r, understood (mo_act m) = Host (Apdu CLA INS_KEY 2 0 data r) /\ known_token (happened l) (Apdu CLA INS_KEY 2 0 data r).
Proof.
  intros E U runs key a m b p l d Henv H K O T Hin Ln Sk. destruct (packet_answer _ _ _ _ _ _ _ _ _ _ 65 Henv H K O T Hin Ln Sk) as (e & d' & O' & Lb).
  pose proof (operated_history _ _ _ _ _ O') as Hh. rewrite happened_snoc in Hh.
  destruct (key_consent _ _ _ _ _ _ _ Henv Hh (or_introl eq_refl) Lb) as [(p1 & data & r & f & -> & Ho)|(data & r & -> & Kn)].
  - left. destruct (approved_told _ _ _ _ _ _ _ _ _ _ _ _ Henv O' T Ho) as (A1 & A2 & A3). split; [apply understood_press; exact A1|]. split; [exact A2|]. exists p1, data, r, f. split; assumption.
  - right. exists data, r. split; [|exact Kn]. apply operated_last in O' as (d0 & _ & _ & Ho & _). destruct (mo_act m) as [pk r0|b0]; cbn [understood operate] in *.
    + destruct (receive_shape _ _ _ _ _ Ho) as [(_ & Q & _)|(outs & _ & Q & _)]; [discriminate Q|]. f_equal. congruence.
    + destruct (press_single _ _ _ _ _ _ Ho) as [[Q _]|(e & outs & Q & Hu & _)]; [discriminate Q|]. assert (e = Apdu CLA INS_KEY 2 0 data r) as -> by congruence. discriminate Hu.
Qed.
Theorem address_told : forall E U runs key a m b p l d, env_ok E -> lifetime E U runs -> In (key, a ++ m :: b) runs -> operated E U key l d -> tells_of E U key a l ->
  In p (mo_sent m) -> length p = 40%nat -> skipn 38 p = [0x90; 0] ->
  (mo_act m = Presses BOTH /\ shown_last a (Some (C_APPROVE, 0%nat)) /\
   exists p2 data r f, on_screen (happened l) = Some (Apdu CLA INS_ADDRESS 1 p2 data r, U_DA, f, []) /\ read_all U a (Apdu CLA INS_ADDRESS 1 p2 data r) f []) \/
  exists data r, understood (mo_act m) = Host (Apdu CLA INS_ADDRESS 1 2 data r) /\ known_token (happened l) (Apdu CLA INS_ADDRESS 1 2 data r).
Proof.
  intros E U runs key a m b p l d Henv H K O T Hin Ln Sk. destruct (packet_answer _ _ _ _ _ _ _ _ _ _ 38 Henv H K O T Hin Ln Sk) as (e & d' & O' & Lb).
  pose proof (operated_history _ _ _ _ _ O') as Hh. rewrite happened_snoc in Hh.
  destruct (address_consent _ _ _ _ _ _ _ Henv Hh (or_introl eq_refl) Lb) as [(p1 & data & r & f & -> & Ho)|(data & r & -> & Kn)].
  - left. destruct (approved_told _ _ _ _ _ _ _ _ _ _ _ _ Henv O' T Ho) as (A1 & A2 & A3). split; [apply understood_press; exact A1|]. split; [exact A2|]. exists p1, data, r, f. split; assumption.
  - right. exists data, r. split; [|exact Kn]. apply operated_last in O' as (d0 & _ & _ & Ho & _). destruct (mo_act m) as [pk r0|b0]; cbn [understood operate] in *.
    + destruct (receive_shape _ _ _ _ _ Ho) as [(_ & Q & _)|(outs & _ & Q & _)]; [discriminate Q|]. f_equal. congruence.
    + destruct (press_single _ _ _ _ _ _ Ho) as [[Q _]|(e & outs & Q & Hu & _)]; [discriminate Q|]. assert (e = Apdu CLA INS_ADDRESS 1 2 data r) as -> by congruence. discriminate Hu.
Qed.
