(** Requests for a key or an address on the whole device: they are granted. *)
From Coq Require Import String.
From Verif Require Import Lib Env TxTable UiFlow P2pkOp App SpecText SpecTree SpecTrace SpecTx SpecAmounts SpecApdu
  SpecScreen SpecPages SpecRequest SpecSign SpecRules SpecAccept SpecAttest SpecStart SpecDispatch Moves TraceScreen TraceShow RequestProofs DispatchProofs SessionProofs StartAccept
  SpecRaw Wire SpecWire Buttons SpecButtons ButtonProofs ButtonRun ButtonOut Whole SpecWhole WholeProofs WholeAll SpecHost SpecWallet WalletProofs WalletRun WholeOut SpecGrant.
From Verif Require PropWire PropButtons.

#[local] Arguments N.eqb : simpl never.
#[local] Arguments N.ltb : simpl never.
#[local] Arguments N.leb : simpl never.
#[local] Arguments N.sub : simpl never.
#[local] Arguments blen : simpl never.
#[local] Arguments num : simpl never.
#[local] Arguments slice : simpl never.
#[local] Arguments app : simpl never.

(** ** The answer to an approval *)
Lemma key_approved : forall E key tr st p1 p2 data r k f pages, env_ok E -> history E key tr st -> on_screen tr = Some (Apdu CLA INS_KEY p1 p2 data r, k, f, pages) ->
  k = U_EPK /\ exists b, snd (step E st UiApprove) = [OResp b SW_OK] /\ exported_key E (key_path data) b.
Proof.
  intros E key tr st p1 p2 data r k f pages Henv H Ho. destruct (screen_state _ _ _ _ _ _ _ _ Henv H Ho) as (B & U & F & Hev & A).
  pose proof (history_shape _ _ _ _ H) as Sh. unfold shape in Sh. destruct (st_ctx st) as [|x|x|x|g] eqn:X.
  - destruct A.
  - destruct A as (p1' & data' & r' & s & Eq & _ & _ & V & G & _ & S & Fl & ->). injection Eq; intros; subst p1' p2 data' r'. destruct Sh as (_ & Su & _). 
    assert (Ku : st_ui st = U_EPK) by (first [exact Su | congruence]). split; [congruence|]. cbn [step]. unfold ui_action. rewrite Ku, X. eexists. split; [reflexivity|].
    destruct (key_at_gen _ _ _ _ Henv G) as [K _]. eexists _, _. split; [exact K|reflexivity].
  - destruct A as (? & ? & ? & ? & ? & ? & ? & Eq & _). discriminate Eq.
  - destruct A as (? & ? & ? & Eq & _). discriminate Eq.
  - destruct (sg_state g); [destruct A as (? & ? & ? & ? & ? & Eq & _)|destruct A as (? & ? & ? & Eq & _)]; discriminate Eq.
Qed.
Lemma address_approved : forall E key tr st p1 p2 data r k f pages, env_ok E -> history E key tr st -> on_screen tr = Some (Apdu CLA INS_ADDRESS p1 p2 data r, k, f, pages) ->
  k = U_DA /\ exists b, snd (step E st UiApprove) = [OResp (if p1 =? 1 then b else []) SW_OK] /\ address_at E (address_network data) (address_path data) b.
Proof.
  intros E key tr st p1 p2 data r k f pages Henv H Ho. destruct (screen_state _ _ _ _ _ _ _ _ Henv H Ho) as (B & U & F & Hev & A).
  pose proof (history_shape _ _ _ _ H) as Sh. unfold shape in Sh. destruct (st_ctx st) as [|x|x|x|g] eqn:X.
  - destruct A.
  - destruct A as (? & ? & ? & ? & Eq & _). discriminate Eq.
  - destruct A as (p1' & p2' & data' & r' & pk & ch & ff & Eq & _ & _ & _ & V & G & Ad & _ & Sd & _ & _ & ->). injection Eq; intros; subst p1' p2' data' r'.
    destruct Sh as (_ & Su & _). assert (Ku : st_ui st = U_DA) by (first [exact Su | congruence]). split; [congruence|]. cbn [step]. unfold ui_action. rewrite Ku, X. unfold ui_action_da. rewrite Sd.
    exists (da_address x). split; [destruct (p1 =? 1); reflexivity|]. destruct (key_at_gen _ _ _ _ Henv G) as [K _]. apply address_gen in Ad as [G1 ->]. eexists _, _. split; [exact K|reflexivity].
  - destruct A as (? & ? & ? & Eq & _). discriminate Eq.
  - destruct (sg_state g); [destruct A as (? & ? & ? & ? & ? & Eq & _)|destruct A as (? & ? & ? & Eq & _)]; discriminate Eq.
Qed.

Lemma right_alive : forall E U key l l' d k f pages, env_ok E -> put l k f pages -> operated E U key (l ++ l') d -> still l' -> Forall (fun x => fst x = Press RIGHT) l' -> ~ dead E U d.
Proof.
  intros E U key l l' d k f pages Henv Pu O St F Dd. destruct (dead_dead _ _ _ _ _ _ _ _ _ Henv Pu O St Dd) as (i & q & Pd).
  destruct (question_run _ _ _ _ _ _ _ _ _ Henv Pu O St) as (_ & i' & n' & p' & bs0 & _ & _ & Pl). destruct Pl as [[Pl _]|(_ & _ & (rest & Er) & _)]; [congruence|].
  assert (K : In BOTH (pressed l')) by (rewrite Er; apply in_or_app; right; left; reflexivity). unfold pressed in K. apply in_flat_map in K as (x & Hx & K).
  rewrite Forall_forall in F. rewrite (F _ Hx) in K. destruct K as [K|[]]. discriminate K.
Qed.

Lemma presses_keep : forall E U key l l' d x, env_ok E -> operated E U key (l ++ l') d -> Forall (fun x => fst x = Press RIGHT) l' -> still l' ->
  on_screen (happened l) = Some x -> on_screen (happened (l ++ l')) = Some x.
Proof.
  intros E U key l l' d x Henv. revert d. induction l' as [|[a os] l' IH] using rev_ind; intros d O F St Q; [rewrite app_nil_r; exact Q|].
  apply Forall_app in F as [F Fa]. apply Forall_inv in Fa. cbn [fst] in Fa. subst a. apply Forall_app in St as [St Sa]. apply Forall_inv in Sa. cbn [fst] in Sa.
  rewrite app_assoc in *. pose proof O as O'. apply operated_last in O' as (d1 & O1 & _ & Hop & _). specialize (IH _ O1 F St Q).
  pose proof (operated_history _ _ _ _ _ O) as Hh.
  destruct (press_single E U d1 RIGHT d os Hop) as [[-> _]|(ue & outs & -> & Hu & _)].
  - rewrite happened_app. cbn. rewrite app_nil_r. exact IH.
  - rewrite happened_snoc in *. rewrite on_screen_snoc. unfold question_after. cbn [fst snd]. rewrite Hu.
    destruct (PropWire.C72_user _ _ _ _ _ _ Henv Hh Hu) as [-> |[(i & ti & bo & ->)|[-> |(xb & xs & -> & _)]]]; try exact IH. discriminate Sa.
Qed.

Section Grant.
  Variables (E : env) (U : ux) (mem : state) (page : text * text) (io key : bytes).
  Hypothesis Henv : env_ok E.
  Hypothesis Hio : blen io = 260.
  Notation step_with := (in_step E U mem page io key).
  Lemma shows : forall tr w l d, step_with tr w l d -> displayed (wh_dev w) = displayed d.
  Proof. intros tr w l d (_ & O & A & _). eapply akin_displayed; [exact Henv|exact (operated_history _ _ _ _ _ O)|exact A]. Qed.

  (** The command arrives. *)
  Lemma put_to : forall tr w l d packet r o, step_with tr w l d -> displayed d <> None -> act_ok (Arrives packet r) -> snd (step E (dv_st d) (command_of packet r)) = [o] ->
    o <> ODiverge -> o <> OUb ->
    exists x w' d', step_with (tr ++ [mk_moment (Arrives packet r) (answer_packets (Host (command_of packet r), [(command_of packet r, [o])])) x]) w' (l ++ [(Host (command_of packet r), [(command_of packet r, [o])])]) d' /\ x = displayed (wh_dev w').
  Proof.
    intros tr w l d packet r o S Dd Ha Hs N1 N2. pose proof S as (G & O & A & T). set (e := command_of packet r) in *.
    assert (Off : dv_at (wh_dev w) <> P_OFF) by (intro K; apply Dd; rewrite <- (shows _ _ _ _ S); unfold displayed; rewrite K; reflexivity).
    destruct (receive E (wh_dev w) e) as [d1 os] eqn:Rc. destruct (receive_shape _ _ _ _ _ Rc) as [(K & _)|(outs1 & _ & -> & Hst1 & _ & _)]; [contradiction|].
    destruct (step_near E _ _ e (akin_near _ _ A)) as [Eo _]. rewrite Hst1 in Eo. cbn [snd] in Eo. rewrite Hs in Eo. subst outs1.
    assert (So : sound [(e, [o])]) by (constructor; [|constructor]; cbn [snd]; split; intros [K|[]]; congruence).
    destruct (advance E U mem page io key Henv Hio tr w l d (Arrives packet r) d1 [(e, [o])] S Ha Rc So) as (w1 & d1' & W1 & S1). cbn [understood] in S1. fold e in S1.
    exists (displayed d1), w1, d1'. split; [exact S1|rewrite W1; reflexivity].
  Qed.

  (** Reading on and on. *)
  Lemma ends_shown : forall tr0 tr w, goes_on E U (power_on mem page io key) (tr0 ++ tr) w -> tr <> [] -> shown_last tr (displayed (wh_dev w)).
  Proof.
    intros tr0 tr w G N1. destruct tr as [|m tr _] using rev_ind; [congruence|]. exists tr, m. split; [reflexivity|]. eapply goes_shown; [exact G|]. exists (tr0 ++ tr), m. rewrite app_assoc. split; reflexivity.
  Qed.
  Lemma visit : forall k f l1, put l1 k f [] -> forall seen tr0 tr w l' d, (forall c, In c seen -> In (Some c) (cards f [])) -> still l' -> Forall (fun x => fst x = Press RIGHT) l' -> step_with (tr0 ++ tr) w (l1 ++ l') d -> tr <> [] ->
    exists tr2 w2 l2 d2, step_with (tr0 ++ tr ++ tr2) w2 (l1 ++ l' ++ l2) d2 /\ still (l' ++ l2) /\ Forall (fun x => fst x = Press RIGHT) (l' ++ l2) /\
      Forall (fun m => mo_act m = Presses RIGHT /\ mo_sent m = []) tr2 /\ (forall c, In c seen -> exists p, was_shown (tr ++ tr2) c p).
  Proof.
    intros k f l1 Pu. induction seen as [|c seen IH]; intros tr0 tr w l' d Hin St F S Ne.
    - exists [], w, [], d. rewrite !app_nil_r. split; [exact S|]. split; [exact St|]. split; [exact F|]. split; [constructor|]. intros c [].
    - pose proof S as (_ & O & _). assert (Hc : In (Some c) (cards f [])) by (apply Hin; left; reflexivity). apply In_nth_error in Hc as (n & Hn).
      destruct (reach E U key l1 l' d k f [] n c Henv Pu St O ltac:(intros s []) (right_alive _ _ _ _ _ _ _ _ _ Henv Pu O St F) Hn) as (l3 & d3 & q & O3 & _ & F3 & D3).
      destruct (follow E U mem page io key Henv Hio k f [] l1 l3 _ _ l' d d3 Pu St S O3 F3) as (tr2 & w3 & S3 & F2).
      assert (St3 : still (l' ++ l3)). { unfold still in *. apply Forall_app. split; [exact St|]. eapply Forall_impl; [|exact F3]. intros [a' os'] [E1 E2]. cbn [fst] in E1. subst a'. exact E2. }
      assert (F3' : Forall (fun x => fst x = Press RIGHT) (l' ++ l3)) by (apply Forall_app; split; [exact F|]; eapply Forall_impl; [|exact F3]; intros x [K _]; exact K).
      rewrite <- (app_assoc l1), <- (app_assoc tr0) in S3.
      assert (Ne2 : tr ++ tr2 <> []) by (intro K; apply app_eq_nil in K as [K _]; contradiction).
      destruct (IH tr0 (tr ++ tr2) w3 (l' ++ l3) d3 (fun x K => Hin x (or_intror K)) St3 F3' S3 Ne2) as (tr4 & w4 & l4 & d4 & S4 & St4 & F4 & F4' & Sh4).
      exists (tr2 ++ tr4), w4, (l3 ++ l4), d4. rewrite <- !app_assoc in *. split; [exact S4|]. split; [exact St4|]. split; [exact F4|]. split; [apply Forall_app; split; assumption|].
      intros c' [<- |K]; [|exact (Sh4 _ K)]. exists q. destruct (ends_shown _ _ _ (proj1 S3) Ne2) as (tr5 & m & Em & Sm). exists m. split; [rewrite app_assoc, Em; apply in_or_app; left; apply in_or_app; right; left; reflexivity|].
      rewrite Sm, (shows _ _ _ _ S3). exact D3.
  Qed.

  (** The question is read and approved. *)
  Lemma granted : forall tr w l d packet r k f seen (P : bytes -> Prop) s, step_with tr w l d -> displayed d <> None -> act_ok (Arrives packet r) ->
    snd (step E (dv_st d) (command_of packet r)) = [OShow k f []] -> (forall c, In c seen -> In (Some c) (cards f [])) ->
    (forall h st, history E key h st -> on_screen h = Some (command_of packet r, k, f, []) -> exists b, snd (step E st UiApprove) = [OResp b s] /\ P b) ->
    exists tr2 w2 b, P b /\ goes_on E U (power_on mem page io key) (tr ++ tr2) w2 /\ answered_when_read packet r (packet_of b s) seen tr2.
  Proof.
    intros tr w l d packet r k f seen P s S Dd Ha Hs Hin Hap. set (e := command_of packet r) in *.
    destruct (put_to _ _ _ _ _ _ _ S Dd Ha Hs ltac:(discriminate) ltac:(discriminate)) as (x & w1 & d1 & S1 & _). fold e in S1.
    change (answer_packets (Host e, [(e, [OShow k f []])])) with (@nil bytes) in S1. set (m0 := mk_moment (Arrives packet r) [] x) in *. set (l1 := l ++ [(Host e, [(e, [OShow k f []])])]) in *.
    assert (Pu : put l1 k f []) by (exists l, e; reflexivity).
    assert (Sc : on_screen (happened l1) = Some (e, k, f, [])) by (unfold l1; rewrite happened_snoc, on_screen_snoc; reflexivity).
    destruct (flow_form _ _ _ _ _ _ _ _ Henv (operated_history _ _ _ _ _ (proj1 (proj2 S1))) Sc) as (body & Ef & _).
    assert (Hc : In (Some C_APPROVE) (cards f [])) by (rewrite Ef; unfold cards; rewrite flat_map_app; apply in_or_app; right; left; reflexivity).
    rewrite <- (app_nil_r l1) in S1.
    destruct (visit k f l1 Pu seen tr [m0] w1 [] d1 Hin (Forall_nil _) (Forall_nil _) S1 ltac:(discriminate)) as (tr2 & w2 & l2 & d2 & S2 & St2 & F2 & Fm2 & Sh2).
    change ([] ++ l2) with l2 in *.
    apply In_nth_error in Hc as (n & Hn). pose proof S2 as (_ & O2 & _).
    destruct (reach E U key l1 l2 d2 k f [] n C_APPROVE Henv Pu St2 O2 ltac:(intros s0 []) (right_alive _ _ _ _ _ _ _ _ _ Henv Pu O2 St2 F2) Hn) as (l3 & d3 & q & O3 & _ & F3 & D3).
    destruct (follow E U mem page io key Henv Hio k f [] l1 l3 _ _ l2 d2 d3 Pu St2 S2 O3 F3) as (tr3 & w3 & S3 & Fm3).
    assert (St3 : still (l2 ++ l3)). { unfold still in *. apply Forall_app. split; [exact St2|]. eapply Forall_impl; [|exact F3]. intros [a' os'] [E1 E2]. cbn [fst] in E1. subst a'. exact E2. }
    rewrite <- (app_assoc l1) in O3, S3. rewrite <- (app_assoc tr) in S3.
    assert (F3a : Forall (fun x => fst x = Press RIGHT) (l2 ++ l3)) by (apply Forall_app; split; [exact F2|]; eapply Forall_impl; [|exact F3]; intros y [K _]; exact K).
    pose proof (approve_press _ _ _ _ _ _ _ _ _ _ Henv Pu St3 O3 D3) as Pr.
    destruct (question_run _ _ _ _ _ _ _ _ _ Henv Pu O3 St3) as ((e0 & Q) & _).
    assert (e0 = e) as ->.
    { pose proof (presses_keep E U key l1 _ _ _ Henv O3 F3a St3 Sc) as K. congruence. }
    destruct (Hap _ _ (operated_history _ _ _ _ _ O3) Q) as (b & Ap & Hb).
    destruct (fire E d3 UiApprove (P_AT 0 0)) as [d4 os4] eqn:Fi. assert (os4 = [(UiApprove, [OResp b s])]) as ->.
    { unfold fire in Fi. destruct (step E (dv_st d3) UiApprove) as [st4 o4]. cbn [snd] in Ap. congruence. }
    assert (O4 : operated E U key ((l1 ++ l2 ++ l3) ++ [(Press BOTH, [(UiApprove, [OResp b s])])]) d4).
    { eapply operated_more; [exact O3|exact I|exact Pr|]. constructor; [|constructor]. cbn [snd]. split; intros [K|[]]; discriminate K. }
    assert (B3 : st_busy (dv_st d3) = true) by (eapply screen_busy; [exact Henv|exact (operated_history _ _ _ _ _ O3)|exact Q]).
    destruct (follow_one E U mem page io key Henv Hio _ _ _ _ _ _ _ S3 B3 O4) as (w4 & (G4 & _)). rewrite sent_one in G4. rewrite <- (app_assoc tr) in G4.
    eexists _, w4, b. split; [exact Hb|]. split; [exact G4|]. assert (Fm : Forall (fun m => mo_act m = Presses RIGHT /\ mo_sent m = []) (tr2 ++ tr3)) by (apply Forall_app; split; assumption).
    eexists (([m0] ++ tr2) ++ tr3), _, (length (tr2 ++ tr3)), q. split; [reflexivity|]. rewrite <- app_assoc.
    split. { change ([m0] ++ tr2 ++ tr3) with (m0 :: (tr2 ++ tr3)). cbn [map]. f_equal. clear -Fm. induction Fm as [|y t [K _] _ IH]; [reflexivity|]. cbn [map length repeat]. rewrite K, IH. reflexivity. }
    split. { change ([m0] ++ tr2 ++ tr3) with (m0 :: (tr2 ++ tr3)). cbn [map concat mo_sent m0]. change ([] ++ concat (map mo_sent (tr2 ++ tr3))) with (concat (map mo_sent (tr2 ++ tr3))). clear -Fm. induction Fm as [|y t [_ K] _ IH]; [reflexivity|]. cbn [map concat]. rewrite K. exact IH. }
    split. { rewrite <- D3, <- (shows _ _ _ _ S3). rewrite app_assoc. eapply ends_shown; [exact (proj1 S3)|discriminate]. }
    split; [reflexivity|]. split; [reflexivity|]. intros c K. destruct (Sh2 _ K) as (p & m & Hm & Sm). exists p, m. split; [rewrite app_assoc; apply in_or_app; left; exact Hm|exact Sm].
  Qed.

  (** From anywhere to a device that asks nothing. *)
  Lemma at_rest : forall tr w, goes_on E U (power_on mem page io key) tr w -> ~ dead E U (wh_dev w) ->
    exists tr1 w1 l d, step_with (tr ++ tr1) w1 l d /\ displayed d <> None /\ on_screen (happened l) = None /\ Forall (fun m => exists b, mo_act m = Presses b) tr1.
  Proof.
    intros tr w G Nd. destruct (back_home E U mem page io key Henv Hio _ _ G Nd) as (tr1 & w1 & G1 & A1 & D1 & K).
    destruct (run_told _ _ _ _ _ _ _ _ Henv Hio G1) as (l & d & O & A & _ & T). assert (S : step_with (tr ++ tr1) w1 l d) by exact (conj G1 (conj O (conj A T))).
    exists tr1, w1, l, d. split; [exact S|]. rewrite (shows _ _ _ _ S) in D1. split; [exact D1|]. split.
    - assert (Hd : dv_at d <> P_OFF) by (intro K1; apply D1; unfold displayed; rewrite K1; reflexivity). destruct T as (T1 & T2 & _).
      unfold all_answered in A1. rewrite (arrived_count _ _ T1), T2, sent_count, <- (counted _ _ _ _ _ Henv O Hd) in A1.
      pose proof (PropWire.C72_count _ _ _ _ Henv (operated_history _ _ _ _ _ O)) as C. unfold open_questions in C. destruct (on_screen (happened l)); [lia|reflexivity].
    - destruct K as [-> |(tr3 & m & -> & F & Em & _)]; [constructor|]. apply Forall_app. split; [|constructor; [eauto|constructor]]. eapply Forall_impl; [|exact F]. intros x ((b & Eb & _) & _). eauto.
  Qed.
End Grant.

Lemma accepted_goes : forall E key tr st e st' outs, history E key tr st -> event_ok e -> step E st e = (st', outs) -> accepted outs = true -> history E key (tr ++ [(e, outs)]) st'.
Proof.
  intros E key tr st e st' outs H Hev Es Ac. eapply history_step; [exact H|exact Hev|exact Es|]. pose proof (step_move _ _ _ _ _ (history_shape _ _ _ _ H) Es) as M.
  clear -M Ac. destruct M; intros K; repeat (destruct K as [K|K]); try discriminate K; try (destruct K; fail); try discriminate Ac.
  all: try (unfold resp in K; repeat match type of K with context [match ?x with _ => _ end] => destruct x end; discriminate K).
  all: try (destruct b; discriminate K).
Qed.

Lemma key_answer_sizes : forall q p1 p2 data r, answer_sizes q (Apdu CLA INS_KEY p1 p2 data r) = [65].
Proof. reflexivity. Qed.

Lemma key_granted : forall E U mem page io key tr w p1 data r, env_ok E -> blen io = 260 -> goes_on E U (power_on mem page io key) tr w -> ~ dead E U (wh_dev w) ->
  act_ok (Arrives (speak INS_KEY p1 0 data) r) -> key_request_ok E [] p1 0 data r ->
  exists tr1 tr2 w2 b, goes_on E U (power_on mem page io key) (tr ++ tr1 ++ tr2) w2 /\ Forall (fun m => exists b, mo_act m = Presses b) tr1 /\
    exported_key E (key_path data) b /\
    (p1 = 2 /\ answered_at_once (speak INS_KEY p1 0 data) r (packet_of b SW_OK) tr2 \/
     exists t, is_path_text (key_path data) t /\
       answered_when_read (speak INS_KEY p1 0 data) r (packet_of b SW_OK)
         ([C_INFO (str "Ext PubKey Export"); C_TEXT (str "Path") t] ++ token_cards (token_of (Apdu CLA INS_KEY p1 0 data r))) tr2).
Proof.
  intros E U mem page io key tr w p1 data r Henv Hio G Nd Ha Rq.
  destruct (at_rest _ _ _ _ _ _ Henv Hio _ _ G Nd) as (tr1 & w1 & l & d & S & Dd & Q & F1). pose proof S as (_ & O & _). pose proof (operated_history _ _ _ _ _ O) as Hh.
  pose proof (understood_ok _ Ha) as [_ Hev]. cbn [understood] in Hev. rewrite heard_speak in Hev. set (e := Apdu CLA INS_KEY p1 0 data r) in *.
  assert (Ac : accepted (snd (step E (dv_st d) e)) = true).
  { apply (accepts_key E key (happened l) (dv_st d) p1 0 data r Henv Hh Hev). split; [exact Q|]. destruct Rq as (R1 & R2 & R3 & R4 & R5 & R6 & R7).
    do 6 (split; [assumption|]). destruct R7 as [[R7 R8]|R7]; [|right; exact R7]. exfalso. apply R7. rewrite R8. reflexivity. }
  destruct (step E (dv_st d) e) as [st1 outs] eqn:Es. cbn [snd] in Ac.
  assert (H1 : history E key (happened l ++ [(e, outs)]) st1) by (eapply accepted_goes; eassumption).
  destruct (token_decides' E key (happened l) st1 INS_KEY p1 0 data r outs Henv H1 Ac (or_introl eq_refl)) as [(Kt & b & ->)|(_ & k & f & ->)].
  - exists tr1.
    destruct (put_to E U mem page io key Henv Hio _ _ _ _ (speak INS_KEY p1 0 data) r (OResp b SW_OK) S Dd Ha) as (x & w2 & d2 & S2 & _);
      [rewrite heard_speak; fold e; rewrite Es; reflexivity|discriminate|discriminate|].
    rewrite heard_speak in S2. fold e in S2. rewrite sent_one, <- app_assoc in S2. eexists _, w2, b. split; [exact (proj1 S2)|]. split; [exact F1|].
    destruct (answer_size _ _ _ _ _ _ b SW_OK Henv H1 (or_introl eq_refl)) as [_ Sz]. specialize (Sz eq_refl). unfold e in Sz. rewrite key_answer_sizes in Sz. destruct Sz as [Sz|[]].
    assert (Lb : length b = 65%nat) by (unfold blen in Sz; lia).
    destruct (key_answer _ _ _ _ _ _ Henv H1 Lb) as (p1' & data' & r' & [B|(B & _)] & K1 & _ & K2); [|discriminate B]. unfold e in B. injection B; intros; subst p1' data' r'.
    split; [exact K2|]. left. split; [exact (proj1 (K1 eq_refl))|]. exists x. reflexivity.
  - assert (Q1 : on_screen (happened l ++ [(e, [OShow k f []])]) = Some (e, k, f, [])) by (rewrite on_screen_snoc; reflexivity).
    destruct (key_approved _ _ _ _ _ _ _ _ _ _ _ Henv H1 Q1) as (-> & _).
    destruct (key_screen _ _ _ _ _ _ _ Henv H1 Q1) as (p1' & data' & r' & t & Ee & _ & Pt & _ & Ef). unfold e in Ee. injection Ee; intros; subst p1' data' r'. fold e in Ef.
    destruct (granted E U mem page io key Henv Hio _ _ _ _ (speak INS_KEY p1 0 data) r U_EPK f ([C_INFO (str "Ext PubKey Export"); C_TEXT (str "Path") t] ++ token_cards (token_of e)) (exported_key E (key_path data)) SW_OK S Dd Ha)
      as (tr2 & w2 & b & Hb & G2 & Rd).
    + rewrite heard_speak. fold e. rewrite Es. reflexivity.
    + intros c Hc. rewrite Ef. unfold cards. rewrite flat_map_app. apply in_app_iff in Hc as [[<- |[<- |[]]]|Hc]; [apply in_or_app; left; left; reflexivity|apply in_or_app; left; right; left; reflexivity|].
      apply in_or_app; right. rewrite flat_map_app. apply in_or_app. left. unfold token_cards in Hc. unfold token_screen. destruct (token_of e =? 0); [destruct Hc|]. destruct Hc as [<- |[]]. left. reflexivity.
    + intros h st Hhs Qh. rewrite heard_speak in Qh. fold e in Qh. destruct (key_approved _ _ _ _ _ _ _ _ _ _ _ Henv Hhs Qh) as (_ & b & Sb & Kb). eauto.
    + exists tr1, tr2, w2, b. rewrite <- app_assoc in G2. split; [exact G2|]. split; [exact F1|]. split; [exact Hb|]. right. exists t. split; [exact Pt|exact Rd].
Qed.

Lemma display_asks : forall E key tr st p2 data r outs, env_ok E -> history E key (tr ++ [(Apdu CLA INS_ADDRESS 2 p2 data r, outs)]) st -> accepted outs = true ->
  exists f, outs = [OShow U_DA f []].
Proof.
  intros E key tr st' p2 data r outs Henv H Ac. apply history_last in H as (st & _ & _ & _ & _ & M & _). remember (Apdu CLA INS_ADDRESS 2 p2 data r) as e eqn:Ee.
  destruct M; try discriminate Ee; try discriminate Ac; try solve [other]; try (eexists; reflexivity).
  - exfalso. unfold accepted in Ac. cbn [existsb success] in Ac. assert (s = SW_OK) as -> by (destruct s; try discriminate Ac; reflexivity).
    subst e. unfold refused in H. destruct H as [H|[H|[H|[H|H]]]]; decompose [and] H; discriminate.
  - exfalso. destruct H2 as [H2|(-> & _)]; [|discriminate Ac]. destruct s; try discriminate H2; discriminate Ac.
Qed.
Lemma address_granted : forall E U mem page io key tr w p1 p2 data r, env_ok E -> blen io = 260 -> goes_on E U (power_on mem page io key) tr w -> ~ dead E U (wh_dev w) ->
  act_ok (Arrives (speak INS_ADDRESS p1 p2 data) r) -> address_request_ok E [] p1 p2 data r ->
  exists tr1 tr2 w2 b, goes_on E U (power_on mem page io key) (tr ++ tr1 ++ tr2) w2 /\ Forall (fun m => exists b, mo_act m = Presses b) tr1 /\
    address_at E (address_network data) (address_path data) b /\
    (p1 = 1 /\ p2 = 2 /\ answered_at_once (speak INS_ADDRESS p1 p2 data) r (packet_of b SW_OK) tr2 \/
     exists t a, path_shown 60 (address_path data) t /\ is_base58 b a /\
       answered_when_read (speak INS_ADDRESS p1 p2 data) r (packet_of (if p1 =? 1 then b else []) SW_OK)
         ([C_INFO (str (if p1 =? 1 then "Confirm Send Address" else "Confirm Address")); C_TEXT (str "Path") t] ++ (if p1 =? 1 then [] else [C_TEXT (str "Address") a]) ++
          token_cards (token_of (Apdu CLA INS_ADDRESS p1 p2 data r))) tr2).
Proof.
  intros E U mem page io key tr w p1 p2 data r Henv Hio G Nd Ha Rq.
  destruct (at_rest _ _ _ _ _ _ Henv Hio _ _ G Nd) as (tr1 & w1 & l & d & S & Dd & Q & F1). pose proof S as (_ & O & _). pose proof (operated_history _ _ _ _ _ O) as Hh.
  pose proof (understood_ok _ Ha) as [_ Hev]. cbn [understood] in Hev. rewrite heard_speak in Hev. set (e := Apdu CLA INS_ADDRESS p1 p2 data r) in *.
  assert (R1' : p1 = 1 \/ p1 = 2) by (destruct Rq as (R1 & _); unfold one_or_two in R1; apply orb_true_iff in R1; rewrite !N.eqb_eq in R1; exact R1).
  assert (Ac : accepted (snd (step E (dv_st d) e)) = true).
  { apply (accepts_address E key (happened l) (dv_st d) p1 p2 data r Henv Hh Hev). split; [exact Q|]. destruct Rq as (R1 & R2 & R3 & R4 & R5 & R6 & R7 & R8).
    do 7 (split; [assumption|]). destruct R8 as [[_ [R8 R9]]|R8]; [|right; exact R8]. exfalso. apply R8. rewrite R9. reflexivity. }
  destruct (step E (dv_st d) e) as [st1 outs] eqn:Es. cbn [snd] in Ac.
  assert (H1 : history E key (happened l ++ [(e, outs)]) st1) by (eapply accepted_goes; eassumption).
  assert (Cs : p1 = 1 /\ (exists b, outs = [OResp b SW_OK]) \/ exists k f, outs = [OShow k f []]).
  { destruct R1' as [-> | ->].
    - destruct (token_decides' E key (happened l) st1 INS_ADDRESS 1 p2 data r outs Henv H1 Ac (or_intror (conj (or_introl eq_refl) eq_refl))) as [(_ & K)|(_ & k & f & K)]; [left; auto|right; eauto].
    - right. destruct (display_asks _ _ _ _ _ _ _ _ Henv H1 Ac) as (f & ->). eauto. }
  destruct Cs as [(E1 & b & ->)|(k & f & ->)].
  - subst p1. exists tr1.
    destruct (put_to E U mem page io key Henv Hio _ _ _ _ (speak INS_ADDRESS 1 p2 data) r (OResp b SW_OK) S Dd Ha) as (x & w2 & d2 & S2 & _);
      [rewrite heard_speak; fold e; rewrite Es; reflexivity|discriminate|discriminate|].
    rewrite heard_speak in S2. fold e in S2. rewrite sent_one, <- app_assoc in S2. eexists _, w2, b. split; [exact (proj1 S2)|]. split; [exact F1|].
    destruct (answer_size _ _ _ _ _ _ b SW_OK Henv H1 (or_introl eq_refl)) as [_ Sz]. specialize (Sz eq_refl). unfold e in Sz. change (answer_sizes (on_screen (happened l)) (Apdu CLA INS_ADDRESS 1 p2 data r)) with [38] in Sz. destruct Sz as [Sz|[]].
    assert (Lb : length b = 38%nat) by (unfold blen in Sz; lia).
    destruct (address_answer _ _ _ _ _ _ Henv H1 Lb) as (p2' & data' & r' & [B|(B & _)] & K1 & _ & _ & K2); [|discriminate B]. unfold e in B. injection B; intros; subst p2' data' r'.
    split; [exact K2|]. left. split; [reflexivity|]. split; [exact (proj1 (K1 eq_refl))|]. exists x. reflexivity.
  - assert (Q1 : on_screen (happened l ++ [(e, [OShow k f []])]) = Some (e, k, f, [])) by (rewrite on_screen_snoc; reflexivity).
    destruct (address_approved _ _ _ _ _ _ _ _ _ _ _ Henv H1 Q1) as (-> & _).
    destruct (address_screen _ _ _ _ _ _ _ Henv H1 Q1) as (p1' & p2' & data' & r' & t & addr & a & Ee & _ & _ & Pt & _ & Ad & Ba & _ & Ef). unfold e in Ee. injection Ee; intros; subst p1' p2' data' r'. fold e in Ef.
    set (seen := [C_INFO (str (if p1 =? 1 then "Confirm Send Address" else "Confirm Address")); C_TEXT (str "Path") t] ++ (if p1 =? 1 then [] else [C_TEXT (str "Address") a]) ++ token_cards (token_of e)).
    destruct (granted E U mem page io key Henv Hio _ _ _ _ (speak INS_ADDRESS p1 p2 data) r U_DA f seen (fun x => x = if p1 =? 1 then addr else []) SW_OK S Dd Ha)
      as (tr2 & w2 & b & Hb & G2 & Rd).
    + rewrite heard_speak. fold e. rewrite Es. reflexivity.
    + intros c Hc. rewrite Ef. unfold cards. rewrite flat_map_app. unfold seen in Hc. apply in_app_iff in Hc as [[<- |[<- |[]]]|Hc]; [apply in_or_app; left; left; reflexivity|apply in_or_app; left; right; left; reflexivity|].
      apply in_or_app; right. rewrite !flat_map_app. apply in_app_iff in Hc as [Hc|Hc]; apply in_or_app.
      * left. destruct (p1 =? 1); [destruct Hc|]. destruct Hc as [<- |[]]. left. reflexivity.
      * right. apply in_or_app. left. unfold token_cards in Hc. unfold token_screen. destruct (token_of e =? 0); [destruct Hc|]. destruct Hc as [<- |[]]. left. reflexivity.
    + intros h st Hhs Qh. rewrite heard_speak in Qh. fold e in Qh. destruct (address_approved _ _ _ _ _ _ _ _ _ _ _ Henv Hhs Qh) as (_ & b & Sb & Kb). eexists. split; [exact Sb|].
      assert (b = addr) as -> by (clear -Kb Ad; destruct Kb as (pk & ch & (s1 & w1 & A1 & A2 & A3) & ->), Ad as (pk' & ch' & (s2 & w2 & B1 & B2 & B3) & ->); assert (s2 = s1) as -> by congruence; assert (w2 = w1) as -> by congruence; congruence). reflexivity.
    + exists tr1, tr2, w2, addr. rewrite <- app_assoc in G2. split; [exact G2|]. split; [exact F1|]. split; [exact Ad|]. right. exists t, a. split; [exact Pt|]. split; [exact Ba|]. rewrite <- Hb. exact Rd.
Qed.

