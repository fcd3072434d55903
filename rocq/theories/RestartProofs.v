(** States that differ only in what is left of earlier displays behave alike. *)
From Verif Require Import Lib Env TxTable UiFlow P2pkOp App SpecTx SpecTrace SpecApdu SpecScreen SpecSign SpecPages SpecDispatch SpecRules SpecRequest Moves TraceScreen TraceAttest SessionProofs FrameRules DispatchProofs RequestProofs ButtonRun Toy Restart SpecRestart.
#[local] Arguments N.eqb : simpl never.
#[local] Arguments N.ltb : simpl never.
#[local] Arguments N.leb : simpl never.
#[local] Arguments N.sub : simpl never.

Definition at_menu (u : ui_kind) : Prop := u = U_MENU \/ u = U_ABOUT.
Inductive alike : state -> state -> Prop :=
| alike_same : forall st, alike st st
| alike_idle : forall c k m x u f d u' f' d', at_menu u -> at_menu u' ->
    alike (mk_state c k m false x u f d) (mk_state c k m false x u' f' d').
Definition ralike (x y : result) : Prop := snd x = snd y /\ alike (fst x) (fst y).

Ltac fields := cbn [set_command set_ctx set_busy set_connected set_dyn overwrite show ui_menu_main ui_menu_about menu_shown handler_err
  st_connected st_key st_cmd st_busy st_ctx st_ui st_flow st_dyn fst snd negb andb orb].
Ltac done_alike := split; [reflexivity|]; cbn [fst]; unfold handler_err; fields; first [apply alike_same | apply alike_idle; assumption].
Ltac branch :=
  match goal with
  | |- ralike (if ?b then _ else _) _ => destruct b
  | |- ralike (match ?x with _ => _ end) _ => destruct x
  end.
Ltac alikes := repeat (fields; first [done_alike | branch]).

Section Handlers.
  Variable E : env.
  Variables (c : N) (k : bytes) (m : cmd) (x : ctx) (u u' : ui_kind) (f f' : flow) (d d' : dyn).
  Hypothesis Hu : at_menu u.
  Hypothesis Hu' : at_menu u'.
  Let s1 := mk_state c k m false x u f d.
  Let s2 := mk_state c k m false x u' f' d'.

  Lemma epk_alike : forall data h, ralike (handler_epk E s1 data h) (handler_epk E s2 data h).
  Proof. intros. subst s1 s2. unfold handler_epk. alikes. Qed.
  Lemma da_alike : forall data dp h, ralike (handler_da E s1 data dp h) (handler_da E s2 data dp h).
  Proof. intros. subst s1 s2. unfold handler_da. alikes. Qed.
  Lemma attest_init_alike : forall data h r, ralike (attest_init s1 data h r) (attest_init s2 data h r).
  Proof. intros. subst s1 s2. unfold attest_init. alikes. Qed.
  Lemma attest_alike : forall data p1 p2 r, ralike (handler_attest E s1 data p1 p2 r) (handler_attest E s2 data p1 p2 r).
  Proof.
    intros. pose proof attest_init_alike. subst s1 s2. unfold handler_attest, attest_init, attest_box_call, check_box_finished, attest_get_frame. alikes.
  Qed.
  Lemma sign_alike : forall data p1 p2 r, ralike (handler_sign E s1 data p1 p2 r) (handler_sign E s2 data p1 p2 r).
  Proof.
    intros. subst s1 s2. unfold handler_sign, sign_init, sign_command, show_output_screen_if_needed, show_dynamic. alikes.
  Qed.
  Lemma step_idle_alike : forall e, ralike (step E s1 e) (step E s2 e).
  Proof.
    intros [cla ins p1 p2 data r| | | | | | | |]; cbn [step].
    1: { pose proof epk_alike as A1. pose proof da_alike as A2. pose proof attest_alike as A3. pose proof sign_alike as A4. subst s1 s2. unfold apdu_dispatcher.
      destruct (negb (cla =? 0xE0)); [done_alike|]. repeat (first [apply A1 | apply A2 | apply A3 | apply A4 | done_alike | branch]). }
    all: subst s1 s2; unfold ui_action, ui_path_both; fields; destruct Hu as [-> | ->], Hu' as [-> | ->]; cbn [has_pages]; try done_alike.
    all: split; [reflexivity|]; cbn [fst]; fields; apply alike_idle; unfold at_menu; auto.
  Qed.
End Handlers.

Lemma step_alike : forall E st st' e, alike st st' -> ralike (step E st e) (step E st' e).
Proof.
  intros E st st' e H. destruct H; [split; [reflexivity|constructor]|]. apply step_idle_alike; assumption.
Qed.
Lemma run_alike : forall E evs st st', alike st st' -> snd (run E st evs) = snd (run E st' evs) /\ alike (fst (run E st evs)) (fst (run E st' evs)).
Proof.
  induction evs as [|e evs IH]; intros st st' H; cbn [run]; [split; [reflexivity|exact H]|].
  destruct (step_alike E st st' e H) as [K1 K2]. destruct (step E st e) as [a o], (step E st' e) as [a' o']. cbn [fst snd] in K1, K2. subst o'.
  destruct (IH a a' K2) as [L1 L2]. destruct (run E a evs) as [b os], (run E a' evs) as [b' os']. cbn [fst snd] in *. split; [f_equal; exact L1|exact L2].
Qed.
Lemma restart_alike : forall mem key, alike (restart mem key) (init key).
Proof. intros. apply alike_idle; left; reflexivity. Qed.
Lemma restart_outputs : forall E mem key evs, outputs E (restart mem key) evs = outputs E (init key) evs.
Proof. intros. apply run_alike, restart_alike. Qed.
Lemma goes_history : forall E mem key tr st, goes E (restart mem key) tr st -> exists st', history E key tr st' /\ alike st st'.
Proof.
  intros E mem key tr st H. induction H as [|tr st e outs st1 H IH He Es Hd]; [exists (init key); split; [constructor|apply restart_alike]|].
  destruct IH as (st' & Hh & A). destruct (step_alike E st st' e A) as [K1 K2]. rewrite Es in K1, K2. destruct (step E st' e) as [st2 o] eqn:Es'. cbn [fst snd] in *. subst o.
  exists st2. split; [econstructor; eassumption|exact K2].
Qed.
Lemma life_histories : forall E l, life E l -> Forall (fun x => exists st, history E (fst x) (snd x) st) l.
Proof.
  intros E l H. induction H; [constructor|]. apply Forall_app. split; [assumption|]. constructor; [|constructor].
  destruct (goes_history _ _ _ _ _ H0) as (st' & Hh & _). eauto.
Qed.

(** What a request that opens something finds of the past: key and token. *)
Lemma open_alike : forall E c k m x u f d m' x' u' f' d' e, at_menu u -> at_menu u' -> opens e ->
  ralike (step E (mk_state c k m false x u f d) e) (step E (mk_state c k m' false x' u' f' d') e).
Proof.
  intros E c k m x u f d m' x' u' f' d' e Hu Hu' Ho. destruct e as [cla ins p1 p2 data r| | | | | | | |]; try contradiction.
  destruct Ho as (-> & P & [-> |[-> |([-> | ->] & -> & P2)]]); rewrite !step_params by reflexivity; rewrite P; cbn [negb].
  - change (INS_KEY =? 1) with false. change (INS_KEY =? 2) with false. change (INS_KEY =? 0x10) with true. cbv iota. unfold handler_epk. alikes.
  - change (INS_ADDRESS =? 1) with false. change (INS_ADDRESS =? 2) with false. change (INS_ADDRESS =? 0x10) with false. change (INS_ADDRESS =? 0x11) with true. cbv iota. unfold handler_da. alikes.
  - change (INS_ATTEST =? 1) with false. change (INS_ATTEST =? 2) with false. change (INS_ATTEST =? 0x10) with false. change (INS_ATTEST =? 0x11) with false. change (INS_ATTEST =? 0x20) with true.
    cbv iota. unfold handler_attest. fields.
    replace (negb (p2 =? 1) && negb (p2 =? 2)) with false by (destruct P2 as [-> | ->]; reflexivity). unfold attest_init. alikes.
  - change (INS_SIGN =? 1) with false. change (INS_SIGN =? 2) with false. change (INS_SIGN =? 0x10) with false. change (INS_SIGN =? 0x11) with false. change (INS_SIGN =? 0x20) with false.
    cbv iota. unfold handler_sign. fields. change (1 =? 1) with true. cbv iota.
    replace (negb (p2 =? 1) && negb (p2 =? 2)) with false by (destruct P2 as [-> | ->]; reflexivity). unfold sign_init. alikes.
Qed.
Lemma past_forgotten : forall E key tr st tr' st', env_ok E -> history E key tr st -> history E key tr' st' ->
  on_screen tr = None -> on_screen tr' = None -> remembered tr = remembered tr' ->
  forall e evs, opens e -> outputs E st (e :: evs) = outputs E st' (e :: evs).
Proof.
  intros E key tr st tr' st' Henv H H' O O' R e evs Ho.
  assert (Idle : forall t s, history E key t s -> on_screen t = None -> st_busy s = false /\ at_menu (st_ui s) /\ st_connected s = remembered t /\ st_key s = key).
  { intros t s Hs Ho1. pose proof (idle_busy _ _ _ _ Henv Hs Ho1) as B. destruct (menus_hold _ _ _ _ Henv Hs B) as (h & _ & M).
    split; [exact B|]. split; [destruct M as [[-> _]|[-> _]]; [left|right]; reflexivity|]. split; [eapply token_remembered; eassumption|]. exact (proj1 (attest_inv_holds _ _ _ _ Henv Hs)). }
  destruct (Idle _ _ H O) as (B1 & U1 & C1 & K1). destruct (Idle _ _ H' O') as (B2 & U2 & C2 & K2).
  destruct st as [c k m b x u f d], st' as [c' k' m' b' x' u' f' d']. cbn [st_busy st_ui st_connected st_key] in *. subst b b' k k'. assert (X : c' = c) by congruence. clear C1 C2. subst c'.
  pose proof (open_alike E c key m x u f d m' x' u' f' d' e U1 U2 Ho) as [A1 A2]. unfold outputs. cbn [run].
  destruct (step E (mk_state c key m false x u f d) e) as [a o], (step E (mk_state c key m' false x' u' f' d') e) as [a' o']. cbn [fst snd] in A1, A2. subst o'.
  destruct (run_alike E evs a a' A2) as [L _]. destruct (run E a evs) as [q os], (run E a' evs) as [q' os']. cbn [fst snd] in *. f_equal. exact L.
Qed.

(** Consequences for each run of a life. *)
Lemma life_run_history : forall E l key tr, life E l -> In (key, tr) l -> exists st, history E key tr st.
Proof. intros E l key tr H Hin. pose proof (life_histories E l H) as F. rewrite Forall_forall in F. exact (F _ Hin). Qed.
Lemma life_prefix : forall E l key a o b, life E l -> In (key, a ++ o :: b) l -> exists st, history E key (a ++ [o]) st.
Proof.
  intros E l key a o b H Hin. destruct (life_run_history _ _ _ _ H Hin) as (st & Hh). replace (a ++ o :: b) with ((a ++ [o]) ++ b) in Hh by (rewrite <- app_assoc; reflexivity).
  exact (history_prefix _ _ _ _ _ Hh).
Qed.
Lemma life_sessions : forall E l key a ins p1 p2 data r outs b, env_ok E -> life E l -> In (key, a ++ (Apdu CLA ins p1 p2 data r, outs) :: b) l ->
  ins = INS_ATTEST \/ ins = INS_SIGN -> p1 <> 1 -> accepted outs = true -> exists start body, open_session ins p2 a start body.
Proof.
  intros E l key a ins p1 p2 data r outs b Henv H Hin Hi Hp Ha. destruct (life_prefix _ _ _ _ _ _ H Hin) as (st & Hh). eapply same_session; eassumption.
Qed.
Lemma life_frames : forall E l key a c b data, env_ok E -> life E l -> In (key, a ++ c :: b) l -> continuation INS_SIGN c = Some (0x12, data) -> attested_data E key data.
Proof.
  intros E l key a c b data Henv H Hin Hc. destruct (life_prefix _ _ _ _ _ _ H Hin) as (st & Hh). destruct (next_frame _ _ _ _ _ _ Henv Hh Hc) as (start & body & _ & K & _). exact K.
Qed.
Lemma life_signature : forall E l key a o b sig, env_ok E -> life E l -> In (key, a ++ o :: b) l -> signature o = Some sig ->
  fst o = UiApprove /\ (exists q f pages, on_screen a = Some (q, U_STX_TX, f, pages)) /\
  exists start body sid, session_of INS_SIGN a = Some (start, body) /\ approved_in INS_SIGN sid body /\ Forall (keeps INS_SIGN sid) body.
Proof. intros E l key a o b sig Henv H Hin Hs. destruct (life_prefix _ _ _ _ _ _ H Hin) as (st & Hh). eapply signature_consent; eassumption. Qed.
Lemma life_key : forall E l key a e outs b x, env_ok E -> life E l -> In (key, a ++ (e, outs) :: b) l -> In (OResp x SW_OK) outs -> length x = 65%nat ->
  (exists p1 data r f, e = UiApprove /\ on_screen a = Some (Apdu CLA INS_KEY p1 0 data r, U_EPK, f, [])) \/
  (exists data r, e = Apdu CLA INS_KEY 2 0 data r /\ known_token a e).
Proof. intros E l key a e outs b x Henv H Hin Ho L. destruct (life_prefix _ _ _ _ _ _ H Hin) as (st & Hh). eapply key_consent; eassumption. Qed.
Lemma life_address : forall E l key a e outs b x, env_ok E -> life E l -> In (key, a ++ (e, outs) :: b) l -> In (OResp x SW_OK) outs -> length x = 38%nat ->
  (exists p2 data r f, e = UiApprove /\ on_screen a = Some (Apdu CLA INS_ADDRESS 1 p2 data r, U_DA, f, [])) \/
  (exists data r, e = Apdu CLA INS_ADDRESS 1 2 data r /\ known_token a e).
Proof. intros E l key a e outs b x Henv H Hin Ho L. destruct (life_prefix _ _ _ _ _ _ H Hin) as (st & Hh). eapply address_consent; eassumption. Qed.

(** Runs of sample events, for the examples. *)
Lemma play_goes_more : forall E st0 evs tr st tr' st', goes E st0 tr st -> play E st evs = Some (tr', st') -> goes E st0 (tr ++ tr') st'.
Proof.
  induction evs as [|e evs IH]; intros tr st tr' st' H P; cbn [play] in P.
  - injection P as <- <-. rewrite app_nil_r. exact H.
  - destruct (step E st e) as [s1 outs] eqn:Es. destruct (event_okb e && halts outs) eqn:Ec; [|discriminate].
    apply andb_true_iff in Ec as [C1 C2]. destruct (play E s1 evs) as [[t s]|] eqn:Ep; [|discriminate]. injection P as <- <-.
    change ((e, outs) :: t) with ([(e, outs)] ++ t). rewrite app_assoc. eapply IH; eauto.
    econstructor; eauto; [apply event_okb_ok; exact C1|apply halts_ok; exact C2].
Qed.
Lemma play_goes : forall E st0 evs tr st, play E st0 evs = Some (tr, st) -> goes E st0 tr st.
Proof. intros E st0 evs tr st H. apply (play_goes_more E st0 evs [] st0); [constructor|exact H]. Qed.
Fixpoint replay (E : env) (mem : state) (runs : list (bytes * list event)) : option (list (bytes * list obs)) :=
  match runs with
  | [] => Some []
  | (key, evs) :: t =>
      match play E (restart mem key) evs with
      | Some (tr, s) => match replay E s t with Some l => Some ((key, tr) :: l) | None => None end
      | None => None
      end
  end.
Lemma replay_more : forall E runs mem l l0, life E l0 -> replay E mem runs = Some l -> life E (l0 ++ l).
Proof.
  induction runs as [|[key evs] t IH]; intros mem l l0 H R; cbn [replay] in R.
  - injection R as <-. rewrite app_nil_r. exact H.
  - destruct (play E (restart mem key) evs) as [[tr s]|] eqn:P; [|discriminate]. destruct (replay E s t) as [l1|] eqn:Q; [|discriminate].
    injection R as <-. change ((key, tr) :: l1) with ([(key, tr)] ++ l1). rewrite app_assoc. apply (IH s); [|exact Q].
    eapply life_run; [exact H|]. eapply play_goes. exact P.
Qed.
Lemma replay_life : forall E mem runs l, replay E mem runs = Some l -> life E l.
Proof. intros E mem runs l R. apply (replay_more E runs mem l []); [constructor|exact R]. Qed.
