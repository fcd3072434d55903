(** Opening, continuing and ending sessions. *)
From Verif Require Import Lib Env Bip32 Address ErgoTree Schnorr TxTable TxBox TxFull Amounts OutputInfo UiFlow P2pkOp App
  SpecTree SpecTrace SpecTx SpecApdu SpecAmounts SpecScreen SpecDispatch SpecSign TreeProofs Moves SignInv SignInput SignOutput SignRest SignShow
  TraceSign TraceAttest TraceScreen PageProofs TraceShow DispatchProofs FlowProofs RequestProofs Toy.

#[local] Arguments N.eqb : simpl never.
#[local] Arguments N.ltb : simpl never.
#[local] Arguments N.leb : simpl never.
#[local] Arguments N.sub : simpl never.
#[local] Arguments blen : simpl never.
#[local] Arguments num : simpl never.
#[local] Arguments slice : simpl never.

(** ** The last start of a history *)

Lemma session_suffix : forall ins tr start body, session_of ins tr = Some (start, body) ->
  exists pre, tr = pre ++ start :: body /\ is_start ins start = true /\ Forall (fun o => is_start ins o = false) body.
Proof.
  intros ins tr. induction tr as [|o tr IH] using rev_ind; intros start body H; [discriminate|].
  rewrite session_snoc in H. destruct (is_start ins o) eqn:S.
  - injection H as <- <-. exists tr. auto.
  - destruct (session_of ins tr) as [[b l]|]; [|discriminate]. injection H as <- <-.
    destruct (IH b l eq_refl) as (pre & -> & A & B). exists pre. rewrite <- app_assoc. split; [reflexivity|]. split; [exact A|].
    apply Forall_app. split; [exact B|]. constructor; [exact S|constructor].
Qed.
(** If a part of a history after [o] has no start, [o] is in the session. *)
Lemma in_body : forall ins tr1 o tr2 start body, session_of ins (tr1 ++ o :: tr2) = Some (start, body) ->
  Forall (fun x => is_start ins x = false) tr2 -> is_start ins o = false -> In o body.
Proof.
  intros ins tr1 o tr2 start body H F S. revert start body H. induction tr2 as [|x tr2 IH] using rev_ind; intros start body H.
  - rewrite session_snoc, S in H. destruct (session_of ins tr1) as [[b l]|]; [|discriminate]. injection H as <- <-. apply in_or_app. right. left. reflexivity.
  - apply Forall_app in F as [F Fx]. inversion Fx as [|? ? Sx _]; subst. rewrite app_comm_cons, app_assoc, session_snoc, Sx in H.
    destruct (session_of ins (tr1 ++ o :: tr2)) as [[b l]|]; [|discriminate]. injection H as <- <-.
    apply in_or_app. left. eapply IH; eauto.
Qed.
Lemma start_or_none : forall ins (l : list obs), Forall (fun x => is_start ins x = false) l \/ exists a x b, l = a ++ x :: b /\ is_start ins x = true /\ Forall (fun x => is_start ins x = false) b.
Proof.
  intros ins l. induction l as [|o l IH] using rev_ind; [left; constructor|]. destruct (is_start ins o) eqn:S.
  - right. exists l, o, []. auto.
  - destruct IH as [F|(a & x & b & -> & A & B)].
    + left. apply Forall_app. split; [exact F|]. constructor; [exact S|constructor].
    + right. exists a, x, (b ++ [o]). rewrite <- app_assoc. split; [reflexivity|]. split; [exact A|]. apply Forall_app. split; [exact B|]. constructor; [exact S|constructor].
Qed.
Lemma session_after : forall ins tr x b, is_start ins x = true -> Forall (fun x => is_start ins x = false) b ->
  session_of ins (tr ++ x :: b) = Some (x, b).
Proof.
  intros ins tr x b S F. induction b as [|y b IH] using rev_ind.
  - rewrite session_snoc, S. reflexivity.
  - apply Forall_app in F as [F Fy]. inversion Fy as [|? ? Sy _]; subst. rewrite app_comm_cons, app_assoc, session_snoc, Sy, (IH F). reflexivity.
Qed.

Lemma history_prefix : forall E key tr tr' st, history E key (tr ++ tr') st -> exists st0, history E key tr st0.
Proof.
  intros E key tr tr'. induction tr' as [|o tr' IH] using rev_ind; intros st H.
  - rewrite app_nil_r in H. eauto.
  - rewrite app_assoc in H. destruct o as [e outs]. apply history_last in H as (st0 & H & _). eauto.
Qed.

(** ** Accepted continuations *)

Lemma accepted_sign : forall E key tr st p1 p2 data r outs, env_ok E ->
  history E key (tr ++ [(Apdu CLA INS_SIGN p1 p2 data r, outs)]) st -> p1 <> 1 -> accepted outs = true ->
  exists st0 g start body s, history E key tr st0 /\ shape st0 /\ event_ok (Apdu CLA INS_SIGN p1 p2 data r) /\
    move E st0 (Apdu CLA INS_SIGN p1 p2 data r) st outs /\ st_busy st0 = false /\
    st_ctx st0 = X_SIGN g /\ sg_state g = SG_APPROVED /\ p2 = sg_session g /\
    session_of INS_SIGN tr = Some (start, body) /\ sign_started E start s p2 /\ Forall (keeps INS_SIGN p2) body /\
    approved_in INS_SIGN p2 body /\ streaming E s (description body) (sg_op g).
Proof.
  intros E key tr st p1 p2 data r outs Henv H Hp Ha. apply history_last in H as (st0 & Hh & Sh & Hev & _ & M & Hd).
  pose proof M as M0. destruct (sign_inv_holds E key tr st0 Henv Hh) as [_ I].
  assert (G : st_busy st0 = false -> forall g, st_ctx st0 = X_SIGN g -> sg_state g = SG_APPROVED ->
    exists start body s, session_of INS_SIGN tr = Some (start, body) /\ sign_started E start s (sg_session g) /\
      Forall (keeps INS_SIGN (sg_session g)) body /\ approved_in INS_SIGN (sg_session g) body /\ streaming E s (description body) (sg_op g)).
  { intros B g X S. rewrite X in I. destruct I as (start & body & s & I1 & I2 & I3 & I4). unfold sign_phase in I4. rewrite S in I4.
    destruct I4 as [I4 I5]. exists start, body, s. do 4 (split; [assumption|]).
    pose proof (shape_idle _ Sh B) as Hm. destruct (st_ui st0); try discriminate; exact I5. }
  inversion M0; subst; try discriminate; try congruence; try solve [other]; try (match goal with K : (if ?b then UiApprove else UiReject) = _ |- _ => destruct b; discriminate K end).
  - exfalso. rename H into R. unfold refused in R. cbv beta iota in R.
    destruct R as [R|[R|[R|[R|R]]]]; decompose [and] R; subst; discriminate Ha.
  - exfalso. match goal with K : handler_error s = true \/ _ |- _ => destruct K as [K|[K _]]; destruct s; discriminate end.
  - match goal with B : st_busy st0 = false, X : st_ctx st0 = X_SIGN ?g, S : sg_state ?g = _ |- _ => destruct (G B _ X S) as (start & body & s & G1 & G2 & G3 & G4 & G5); exists st0, g, start, body, s end.
    do 12 (split; [assumption || reflexivity|]). assumption.
  - match goal with B : st_busy st0 = false, X : st_ctx st0 = X_SIGN ?g, S : sg_state ?g = _ |- _ => destruct (G B _ X S) as (start & body & s & G1 & G2 & G3 & G4 & G5); exists st0, g, start, body, s end.
    do 12 (split; [assumption || reflexivity|]). assumption.
  - match goal with B : st_busy st0 = false, X : st_ctx st0 = X_SIGN ?g, S : sg_state ?g = _ |- _ => destruct (G B _ X S) as (start & body & s & G1 & G2 & G3 & G4 & G5); exists st0, g, start, body, s end.
    do 12 (split; [assumption || reflexivity|]). assumption.
Qed.

Lemma accepted_attest : forall E key tr st p1 p2 data r outs, env_ok E ->
  history E key (tr ++ [(Apdu CLA INS_ATTEST p1 p2 data r, outs)]) st -> p1 <> 1 -> accepted outs = true ->
  exists start body, session_of INS_ATTEST tr = Some (start, body) /\ attest_started start p2 /\
    Forall (keeps INS_ATTEST p2) body /\ attest_allowed start p2 body.
Proof.
  intros E key tr st p1 p2 data r outs Henv H Hp Ha. apply history_last in H as (st0 & Hh & Sh & Hev & _ & M & Hd).
  destruct (attest_inv_holds E key tr st0 Henv Hh) as [_ I].
  assert (G : forall c, st_ctx st0 = X_ATTEST c -> at_state c <> AT_INITIALIZED ->
    exists start body, session_of INS_ATTEST tr = Some (start, body) /\ attest_started start (at_session c) /\
      Forall (keeps INS_ATTEST (at_session c)) body /\ attest_allowed start (at_session c) body).
  { intros c X S. rewrite X in I. destruct I as (start & body & I1 & I2 & I3 & I4). exists start, body. do 3 (split; [assumption|]).
    unfold attest_phase in I4. destruct (at_state c); [congruence| |]; apply I4. }
  inversion M; subst; try discriminate; try congruence; try solve [other]; try (match goal with K : (if ?b then UiApprove else UiReject) = _ |- _ => destruct b; discriminate K end).
  - exfalso. rename H into R. unfold refused in R. cbv beta iota in R.
    destruct R as [R|[R|[R|[R|R]]]]; decompose [and] R; subst; discriminate Ha.
  - exfalso. match goal with K : handler_error s = true \/ _ |- _ => destruct K as [K|[K _]]; destruct s; discriminate end.
  - eapply G; eauto. congruence.
  - eapply G; eauto. congruence.
  - eapply G; eauto. congruence.
Qed.

(** ** C35: the session id *)

Lemma continuation_form : forall ins e outs x, continuation ins (e, outs) = Some x ->
  exists p1 p2 data r, e = Apdu CLA ins p1 p2 data r /\ p1 <> 1 /\ accepted outs = true /\ x = (p1, data).
Proof.
  intros ins e outs x H. unfold continuation in H. destruct e as [cla i p1 p2 data r| | | | | | | |]; try discriminate.
  destruct ((cla =? 0xE0) && (i =? ins) && negb (p1 =? 1) && accepted outs) eqn:C; [|discriminate]. injection H as <-.
  apply andb_true_iff in C as [C C4]. apply andb_true_iff in C as [C C3]. apply andb_true_iff in C as [C1 C2].
  apply N.eqb_eq in C1, C2. apply negb_true_iff, N.eqb_neq in C3. subst. exists p1, p2, data, r. auto.
Qed.
Lemma same_session : forall E key tr st ins p1 p2 data r outs, env_ok E -> ins = INS_ATTEST \/ ins = INS_SIGN ->
  history E key (tr ++ [(Apdu CLA ins p1 p2 data r, outs)]) st -> p1 <> 1 -> accepted outs = true ->
  exists start body, open_session ins p2 tr start body.
Proof.
  intros E key tr st ins p1 p2 data r outs Henv [-> | ->] H Hp Ha.
  - destruct (accepted_attest _ _ _ _ _ _ _ _ _ Henv H Hp Ha) as (start & body & A1 & _ & A3 & A4).
    exists start, body. split; [exact A1|]. split; [exact A3|]. destruct A4 as [A4|A4]; [left; auto|right; exact A4].
  - destruct (accepted_sign _ _ _ _ _ _ _ _ _ Henv H Hp Ha) as (st0 & g & start & body & s & A). decompose [and] A.
    exists start, body. split; [assumption|]. split; [assumption|]. right. assumption.
Qed.

(** A continuation accepted after an observation that no open session contains. *)
Lemma ended_gen : forall E key tr1 o tr2 c st ins, env_ok E -> ins = INS_ATTEST \/ ins = INS_SIGN ->
  history E key (tr1 ++ o :: tr2 ++ [c]) st -> continuation ins c <> None ->
  is_start ins o = false -> (forall sid, ~ keeps ins sid o) ->
  exists a start b sid, tr2 = a ++ start :: b /\ is_start ins start = true /\ session_id ins sid start b.
Proof.
  intros E key tr1 o tr2 [e outs] st ins Henv Hi H Hc So Hk.
  destruct (continuation ins (e, outs)) as [x|] eqn:C; [|congruence]. apply continuation_form in C as (p1 & p2 & data & r & -> & Hp & Ha & _).
  rewrite app_comm_cons, app_assoc in H.
  destruct (same_session _ _ _ _ _ _ _ _ _ _ Henv Hi H Hp Ha) as (start & body & O1 & O2 & O3).
  destruct (start_or_none ins tr2) as [F|(a & y & b & -> & A & B)].
  - exfalso. pose proof (in_body _ _ _ _ _ _ O1 F So) as Hin. rewrite Forall_forall in O2. apply (Hk p2). apply O2. exact Hin.
  - exists a, y, b, p2. split; [reflexivity|]. split; [exact A|].
    rewrite app_comm_cons, app_assoc, (session_after _ _ _ _ A B) in O1. injection O1 as <- <-. exact O3.
Qed.
Lemma ends_start : forall ins o, ends ins o -> is_start ins o = false.
Proof.
  intros ins [e outs] H. destruct e as [cla i p1 p2 data r| | | | | | | |]; try reflexivity. destruct H as (_ & _ & _ & [H|H]); unfold is_start.
  - apply N.eqb_neq in H. rewrite H, andb_false_r. reflexivity.
  - rewrite H, andb_false_r. reflexivity.
Qed.
Lemma ends_keeps : forall ins sid o, ends ins o -> ~ keeps ins sid o.
Proof.
  intros ins sid [e outs] H K. destruct e as [cla i p1 p2 data r| | | | | | | |]; try (destruct H as (Hu & b & s & H1 & H2); try discriminate Hu; cbn [keeps] in K; apply H2; eapply K; exact H1).
  destruct H as (-> & Hi & He & H). cbn [keeps] in K. destruct K as [[K _]|[[K _]|(s & K1 & K2)]].
  - apply continuation_form in K as (a & b & c & d & K1 & _ & K2 & _). injection K1 as -> -> -> -> ->. destruct H; congruence.
  - destruct K as [-> | ->]; discriminate Hi.
  - apply He. exists s. auto.
Qed.
Lemma ended : forall E key tr1 o tr2 c st ins, env_ok E -> ins = INS_ATTEST \/ ins = INS_SIGN ->
  history E key (tr1 ++ o :: tr2 ++ [c]) st -> ends ins o -> continuation ins c <> None ->
  exists a start b sid, tr2 = a ++ start :: b /\ is_start ins start = true /\ session_id ins sid start b.
Proof.
  intros. eapply ended_gen; eauto; [apply ends_start; assumption|intros; apply ends_keeps; assumption].
Qed.

(** Only a start command draws session ids. *)
Definition no_div (x : result) : Prop := ~ In ODiverge (snd x).
Lemma nd_resp : forall st s, no_div (st, [resp s]). Proof. intros st s [K|[]]. destruct s; discriminate. Qed.
Lemma nd_err : forall st s, no_div (handler_err st s). Proof. intros. apply nd_resp. Qed.
Lemma nd_okresp : forall st b s, no_div (st, [OResp b s]). Proof. intros st b s [K|[]]. discriminate. Qed.
Lemma nd_show : forall st k f p, no_div (st, [OShow k f p]). Proof. intros st k f p [K|[]]. discriminate. Qed.
Lemma no_diverge : forall E st ins p1 p2 data r, ins = INS_ATTEST \/ ins = INS_SIGN -> p1 <> 1 ->
  no_div (step E st (Apdu CLA ins p1 p2 data r)).
Proof.
  intros E st ins p1 p2 data r Hi P1. rewrite step_params by (destruct Hi as [-> | ->]; reflexivity).
  destruct (params_ok ins p1 p2); cbn [negb]; [|apply nd_okresp].
  assert (Bc : forall c call, no_div (attest_box_call E st c call)).
  { intros c call. unfold attest_box_call. destruct (at_state c); try apply nd_err. destruct (call (attest_bs c)) as [q s].
    destruct q; try apply nd_err; try apply nd_resp. unfold check_box_finished.
    destruct (bx_state (at_box (attest_put c s))); try apply nd_resp.
    destruct (box_id_hash _ _ _ _) as [[q y] id]. destruct q; first [apply nd_okresp | apply nd_err]. }
  assert (Gf : forall c, no_div (attest_get_frame E st c data)).
  { intros c. unfold attest_get_frame. destruct (at_state c); try apply nd_err.
    destruct (bind (rd (read_u8 data)) (fun '(i, l) => finished l i)); [|apply nd_err].
    match goal with |- no_div (if ?q then _ else _) => destruct q end; [apply nd_err|apply nd_okresp]. }
  destruct Hi as [-> | ->].
  - change (no_div (handler_attest E st data p1 p2 r)). unfold handler_attest. destruct (st_busy st); [apply nd_resp|]. rewrite match_sub.
    apply N.eqb_neq in P1. change (p1 =? 0x01) with (p1 =? 1). rewrite P1.
    assert (S : forall k, (forall c, no_div (k c)) -> no_div (match st_cmd st with
      | CMD_ATTEST => match st_ctx st with X_ATTEST c => if p2 =? at_session c then k c else handler_err st SW_BAD_SESSION_ID | _ => handler_err st SW_UB end
      | _ => handler_err st SW_BAD_STATE end)).
    { intros k K. destruct (st_cmd st); try apply nd_err. destruct (st_ctx st); try apply nd_err. destruct (p2 =? at_session c); [apply K|apply nd_err]. }
    repeat (match goal with |- no_div (if ?q then _ else _) => destruct q end; [apply S; intros; first [apply Bc | apply Gf]|]). apply nd_err.
  - change (no_div (handler_sign E st data p1 p2 r)). unfold handler_sign. destruct (st_busy st); [apply nd_resp|].
    apply N.eqb_neq in P1. change (p1 =? 0x01) with (p1 =? 1). rewrite P1. destruct (is_sign_subcommand p1); [|apply nd_err].
    destruct (st_cmd st); try apply nd_err. destruct (st_ctx st) as [|x|x|x|g]; try apply nd_err. destruct (p2 =? sg_session g); [|apply nd_err].
    unfold sign_command. destruct (sg_state g); [apply nd_err|]. destruct (sign_exec E (st_key st) (sg_op g) p1 data) as [[[op|s] a]|]; [|apply nd_err|apply nd_err].
    destruct a; [apply nd_resp| |].
    + unfold show_output_screen_if_needed. destruct (p2pk_should_show_output op) as [[|]|]; [|apply nd_resp|apply nd_err].
      destruct (p2pk_show_output_confirm_screen op) as [[[f d] op']|]; [apply nd_show|apply nd_err].
    + destruct (p2pk_show_confirm_screen op) as [[[f d] op']|]; [apply nd_show|apply nd_err].
Qed.

(** A continuation with another id than that of the open session. *)
Lemma wrong_session : forall E key tr st ins p1 p2 data r, env_ok E -> ins = INS_ATTEST \/ ins = INS_SIGN ->
  history E key tr st -> event_ok (Apdu CLA ins p1 p2 data r) -> on_screen tr = None -> p1 <> 0 -> p1 <> 1 -> p2 <> 0 ->
  ~ (exists start body, open_session ins p2 tr start body) ->
  exists st' s, step E st (Apdu CLA ins p1 p2 data r) = (st', [OResp [] s]) /\ handler_error s = true /\
    st_cmd st' = CMD_NONE /\ st_ctx st' = X_NONE.
Proof.
  intros E key tr st ins p1 p2 data r Henv Hi H Hev Hs P0 P1 P2 Hn.
  pose proof (screen_idle_state _ _ _ _ Henv H Hs) as B.
  destruct (step E st (Apdu CLA ins p1 p2 data r)) as [st' outs] eqn:Es. pose proof (history_shape _ _ _ _ H) as Sh.
  assert (M : move E st (Apdu CLA ins p1 p2 data r) st' outs) by (eapply step_move; eauto).
  assert (Hd : ~ In ODiverge outs -> accepted outs = false).
  { intros D. destruct (accepted outs) eqn:Ha; [|reflexivity]. exfalso. apply Hn.
    eapply same_session; eauto. econstructor; eauto. }
  assert (P : params_ok ins p1 p2 = true).
  { apply N.eqb_neq in P0, P2. destruct Hi as [-> | ->]; unfold params_ok; rewrite P0, P2; reflexivity. }
  assert (Kn : known_ins ins = true) by (destruct Hi as [-> | ->]; reflexivity).
  assert (D : ~ In ODiverge outs) by (pose proof (no_diverge E st ins p1 p2 data r Hi P1) as K; rewrite Es in K; exact K).
  specialize (Hd D). assert (U : ~ In OUb outs) by (eapply no_command_ub; eauto; econstructor; eauto).
  inversion M; subst; try discriminate; try congruence; try solve [other];
    try (match goal with K : (if ?b then UiApprove else UiReject) = _ |- _ => destruct b; discriminate K end);
    try (destruct Hi; discriminate).
  - exfalso. rename H0 into R. unfold refused in R. cbv beta iota in R. destruct R as [R|[R|[R|[R|R]]]]; decompose [and] R; congruence.
  - match goal with K : handler_error s = true \/ _ |- _ => destruct K as [K|(_ & _ & K & _)]; [|congruence] end.
    exists (overwrite left (reset st)), s. split; [|auto]. f_equal. destruct s; try reflexivity; try discriminate. exfalso. apply U. left. reflexivity.
  - exfalso. apply D. left. reflexivity.
Qed.

(** ** C36: ids *)

Lemma started_small : forall i r, In i (r_ids r) -> Forall (fun i => i < 256) (r_ids r) -> i < 256.
Proof. intros i r H F. rewrite Forall_forall in F. apply F. exact H. Qed.
Lemma id_given : forall E key tr o st sid, env_ok E -> history E key (tr ++ [o]) st -> gives_session_id tr o sid ->
  exists ins start body, (ins = INS_ATTEST \/ ins = INS_SIGN) /\ session_of ins (tr ++ [o]) = Some (start, body) /\
    In sid (drawn_ids start) /\ 0 < sid < 256.
Proof.
  intros E key tr [e outs] st sid Henv H [Ho Hg]. cbn [fst snd] in *.
  pose proof (attest_inv_holds E key _ st Henv H) as [_ IA]. pose proof (sign_inv_holds E key _ st Henv H) as [_ IS].
  assert (A : forall c, st_ctx st = X_ATTEST c -> at_session c = sid -> exists ins start body, (ins = INS_ATTEST \/ ins = INS_SIGN) /\ session_of ins (tr ++ [(e, outs)]) = Some (start, body) /\
    In sid (drawn_ids start) /\ 0 < sid < 256).
  { intros c X <-. rewrite X in IA. destruct IA as (start & body & I1 & (p2 & data & r & o' & -> & _ & Ev & I2 & I3 & _) & _).
    exists INS_ATTEST, (Apdu CLA INS_ATTEST 1 p2 data r, o'), body. split; [auto|]. split; [exact I1|]. split; [exact I3|].
    cbn [fst event_ok] in Ev. decompose [and] Ev. pose proof (started_small (at_session c) r I3). split; [lia|auto]. }
  assert (B : forall g, st_ctx st = X_SIGN g -> sg_session g = sid -> exists ins start body, (ins = INS_ATTEST \/ ins = INS_SIGN) /\ session_of ins (tr ++ [(e, outs)]) = Some (start, body) /\
    In sid (drawn_ids start) /\ 0 < sid < 256).
  { intros g X <-. rewrite X in IS. destruct IS as (start & body & s & I1 & (p2 & data & r & f & sk & ch & pk & w & -> & _ & Ev & R) & _). decompose [and] R.
    exists INS_SIGN, (Apdu CLA INS_SIGN 1 p2 data r, [OShow U_STX_APPROVE f []]), body. split; [auto|]. split; [exact I1|]. split; [assumption|].
    cbn [fst event_ok] in Ev. decompose [and] Ev. pose proof (started_small (sg_session g) r ltac:(assumption)). split; [lia|auto]. }
  apply history_last in H as (st0 & Hh & Sh & Hev & _ & M & _). destruct Hg as [Hs|[He (q & k & f & pages & Hq & Hk)]].
  - unfold is_start in Hs. destruct e as [cla i p1 p2 data r| | | | | | | |]; try discriminate.
    apply andb_true_iff in Hs as [Hs _]. apply andb_true_iff in Hs as [Hs P1]. apply andb_true_iff in Hs as [C I]. apply N.eqb_eq in C, I, P1. subst cla i p1 outs.
    inversion M; subst; try discriminate; try congruence; try solve [other];
      try (match goal with K : (if ?b then UiApprove else UiReject) = _ |- _ => destruct b; discriminate K end).
    + exfalso. match goal with K : resp ?s = _ |- _ => destruct s; discriminate K end.
    + eapply A; reflexivity.
  - destruct (screen_state _ _ _ _ _ _ _ _ Henv Hh Hq) as (Bz & U & _ & As). subst outs.
    remember e as ev eqn:Ee. remember [OResp [sid] SW_OK] as os eqn:Eo.
    destruct M; try discriminate Eo; try (exfalso; destruct He; congruence).
    all: try (exfalso; destruct Hk; congruence).
    + destruct b; [|destruct He; discriminate]. apply (A _ eq_refl). cbn. congruence.
    + apply (B _ eq_refl). cbn. congruence.
Qed.

(** ** C33: signatures *)

Lemma order_eq : GROUP_ORDER = SECP256K1_N.
Proof. vm_compute. reflexivity. Qed.
Lemma size_56 : forall q e, In 56 (answer_sizes q e) -> e = UiApprove /\ exists x f pages, q = Some (x, U_STX_TX, f, pages).
Proof.
  intros q e H. destruct e; cbn [answer_sizes] in H; try (destruct H; fail).
  - exfalso. repeat match type of H with context [if ?c then _ else _] => destruct c end; cbn [In] in H; repeat (destruct H as [H|H]; [discriminate H|]); destruct H.
  - split; [reflexivity|]. destruct q as [[[[x k] f] pages]|]; [|destruct H].
    destruct k; try (exfalso; destruct x; repeat match type of H with context [if ?c then _ else _] => destruct c end; cbn [In] in H; repeat (destruct H as [H|H]; [discriminate H|]); destruct H; fail).
    eauto.
  - exfalso. destruct q as [[[[a []] f] pages]|]; try (destruct H; fail); cbn [In] in H; repeat (destruct H as [H|H]; [discriminate H|]); destruct H.
Qed.
Lemma signature_inv : forall o sig, signature o = Some sig -> snd o = [OResp sig SW_OK] /\ blen sig = 56.
Proof.
  intros [e outs] sig H. unfold signature in H. cbn [snd] in *. destruct outs as [|[b s| | | |] [|]]; try discriminate.
  - destruct s; try discriminate. destruct (blen b =? 56) eqn:B; [|discriminate]. injection H as <-. apply N.eqb_eq in B. auto.
  - destruct s; discriminate.
Qed.

Record final_state (E : env) (start : obs) (body : list obs) (sid : N) (s : session) (h : s_head) : Prop := mk_fin {
  fs_started : sign_started E start s sid;
  fs_keeps : Forall (keeps INS_SIGN sid) body;
  fs_approved : approved_in INS_SIGN sid body;
  fs_wf : wf E (description body) h;
  fs_phase : op_phase (description body) h = OP_TX_FINISHED;
  fs_amounts : exists a, amounts_rel (description body) a;
  fs_settled : settled (description body) (ss_path s) (sx_outputs (description body)) }.

Lemma signed : forall E key tr o st sig, env_ok E -> history E key (tr ++ [o]) st -> signature o = Some sig ->
  fst o = UiApprove /\ (exists q f pages, on_screen tr = Some (q, U_STX_TX, f, pages)) /\ st_ctx st = X_NONE /\
  exists start body sid s h sk ch, session_of INS_SIGN tr = Some (start, body) /\ final_state E start body sid s h /\
    e_derive E (ss_path s) = Some (sk, ch) /\
    schnorr_sign_finish E (ss_prefix s ++ tx_bytes E (description body) h) sk (ss_key s) = Some sig.
Proof.
  intros E key tr [e outs] st sig Henv H Hs. apply signature_inv in Hs as [Ho Hl]. cbn [fst snd] in *. subst outs.
  destruct (answer_size _ _ _ _ _ _ sig SW_OK Henv H ltac:(left; reflexivity)) as [_ A]. specialize (A eq_refl). rewrite Hl in A.
  apply size_56 in A as (-> & q & f & pages & Hq). split; [reflexivity|]. split; [eauto|].
  apply history_last in H as (st0 & Hh & Sh & Hev & _ & M & _).
  destruct (paged_session _ _ _ _ _ _ _ _ Henv Hh Hq (or_intror eq_refl)) as (g & start & body & s & X1 & X2 & X3 & X4 & X5 & X6 & X7 & X8 & X9 & X10 & X11).
  unfold sign_phase in X8. rewrite X2 in X8. destruct X8 as (_ & h & W & F & S).
  assert (K : p2pk_send_response E (sg_op g) = Ok sig /\ st_ctx st = X_NONE).
  { inversion M; subst; try congruence; try solve [destruct b; congruence].
    - match goal with K : refused _ _ _ |- _ => destruct K end.
    - split; [congruence|reflexivity].
    - exfalso. match goal with K : resp ?s = _, L : handler_error ?s = true |- _ => destruct s; try discriminate K; discriminate L end.
    - exfalso. match goal with K : _ \/ _ |- _ => destruct K as [[K _]|[K _]]; discriminate K end. }
  destruct K as [K K']. split; [exact K'|]. destruct F as ((F1 & F2 & F3) & F4 & F5 & F6 & F7 & F8).
  unfold p2pk_send_response in K. rewrite F4, F2 in K. destruct (e_derive E (ss_path s)) as [[sk ch]|] eqn:D; [|discriminate].
  destruct (schnorr_sign_finish E (op_hash (sg_op g)) sk (op_key (sg_op g))) as [x|] eqn:Fi; [|discriminate]. rewrite F1, F5 in Fi.
  exists start, body, (sg_session g), s, h, sk, ch. split; [exact X4|]. split; [constructor; eauto|]. split; [exact D|]. congruence.
Qed.
Lemma signature_consent : forall E key tr o st sig, env_ok E -> history E key (tr ++ [o]) st -> signature o = Some sig ->
  fst o = UiApprove /\ (exists q f pages, on_screen tr = Some (q, U_STX_TX, f, pages)) /\
  exists start body sid, session_of INS_SIGN tr = Some (start, body) /\ approved_in INS_SIGN sid body /\
    Forall (keeps INS_SIGN sid) body.
Proof.
  intros E key tr o st sig Henv H S. destruct (signed _ _ _ _ _ _ Henv H S) as (A & B & _ & start & body & sid & s & h & sk & ch & O1 & F & _).
  do 2 (split; [assumption|]). exists start, body, sid. split; [exact O1|]. split; apply F.
Qed.

(** ** C34: a context is only created by a start command *)

Lemma history_fun : forall E key tr st1, history E key tr st1 -> forall st2, history E key tr st2 -> st1 = st2.
Proof.
  induction 1 as [|tr st e outs st' H IH Hev Hs Hd]; intros st2 H2.
  - inversion H2 as [|tr0 ? ? ? ? ? ? ? ? K]; subst; [reflexivity|]. destruct tr0; discriminate.
  - apply history_last in H2 as (st0 & H0 & _ & _ & S & _). rewrite <- (IH _ H0) in S. congruence.
Qed.
Definition not_sign (x : ctx) : Prop := match x with X_SIGN _ => False | _ => True end.
Lemma sign_created : forall E key tr1 tr2 st1 st2, env_ok E -> history E key tr1 st1 -> not_sign (st_ctx st1) ->
  history E key (tr1 ++ tr2) st2 -> Forall (fun o => is_start INS_SIGN o = false) tr2 -> not_sign (st_ctx st2).
Proof.
  intros E key tr1 tr2 st1 st2 Henv H1 N1. revert st2. induction tr2 as [|[e outs] tr2 IH] using rev_ind; intros st2 H F.
  - rewrite app_nil_r in H. replace st2 with st1; [exact N1|]. eapply history_fun; eauto.
  - rewrite app_assoc in H. apply Forall_app in F as [F Fx]. inversion Fx as [|? ? Sx _]; subst.
    apply history_last in H as (st0 & Hh & Sh & Hev & _ & M & D). specialize (IH _ Hh F).
    destruct M; cbn; try exact I; try exact IH; try (match goal with K : st_ctx _ = X_SIGN _ |- _ => rewrite K in IH; destruct IH end).
    + exfalso. apply D. left. reflexivity.
    + destruct b; exact I.
    + discriminate Sx.
Qed.
Lemma two_signatures : forall E key tr1 o1 tr2 o2 st sig1 sig2, env_ok E ->
  history E key (tr1 ++ o1 :: tr2 ++ [o2]) st -> signature o1 = Some sig1 -> signature o2 = Some sig2 ->
  exists a start b sid, tr2 = a ++ start :: b /\ is_start INS_SIGN start = true /\ approved_in INS_SIGN sid b.
Proof.
  intros E key tr1 o1 tr2 o2 st sig1 sig2 Henv H S1 S2.
  assert (H1 : exists st1, history E key (tr1 ++ [o1]) st1).
  { apply (history_prefix E key (tr1 ++ [o1]) (tr2 ++ [o2]) st). rewrite <- app_assoc. exact H. }
  destruct H1 as [st1 H1]. destruct (signed _ _ _ _ _ _ Henv H1 S1) as (_ & _ & N1 & _).
  rewrite app_comm_cons, app_assoc in H. pose proof H as H'. destruct o2 as [e2 outs2].
  destruct (signed _ _ _ _ _ _ Henv H S2) as (E2 & (q & f & pages & Q) & _ & start & body & sid & s & h & sk & ch & O1 & F & _).
  apply history_last in H as (st0 & Hh & _).
  destruct (paged_session _ _ _ _ _ _ _ _ Henv Hh Q (or_intror eq_refl)) as (g & start' & body' & s' & X1 & _).
  destruct (start_or_none INS_SIGN tr2) as [Fo|(a & y & b & -> & A & B)].
  - exfalso. change (o1 :: tr2) with ([o1] ++ tr2) in Hh. rewrite app_assoc in Hh.
    pose proof (sign_created _ _ _ _ _ _ Henv H1 ltac:(rewrite N1; exact I) Hh Fo) as K. rewrite X1 in K. exact K.
  - exists a, y, b, sid. split; [reflexivity|]. split; [exact A|].
    rewrite app_comm_cons, app_assoc, (session_after _ _ _ _ A B) in O1. injection O1 as <- <-. apply F.
Qed.

(** After a signature a continuation needs a new session, too. *)
Lemma signature_ends : forall E key tr1 o1 tr2 c st sig, env_ok E ->
  history E key (tr1 ++ o1 :: tr2 ++ [c]) st -> signature o1 = Some sig -> continuation INS_SIGN c <> None ->
  exists a start b sid, tr2 = a ++ start :: b /\ is_start INS_SIGN start = true /\ approved_in INS_SIGN sid b.
Proof.
  intros E key tr1 o1 tr2 [e outs] st sig Henv H S1 Hc.
  assert (H1 : exists st1, history E key (tr1 ++ [o1]) st1).
  { apply (history_prefix E key (tr1 ++ [o1]) (tr2 ++ [(e, outs)]) st). rewrite <- app_assoc. exact H. }
  destruct H1 as [st1 H1]. destruct (signed _ _ _ _ _ _ Henv H1 S1) as (_ & _ & N1 & _).
  destruct (continuation INS_SIGN (e, outs)) as [x|] eqn:C; [|congruence]. apply continuation_form in C as (p1 & p2 & data & r & -> & Hp & Ha & _).
  rewrite app_comm_cons, app_assoc in H.
  destruct (accepted_sign _ _ _ _ _ _ _ _ _ Henv H Hp Ha) as (st0 & g & start & body & s & Hh & _ & _ & _ & _ & X1 & _ & _ & O1 & _ & _ & O3 & _).
  destruct (start_or_none INS_SIGN tr2) as [Fo|(a & y & b & -> & A & B)].
  - exfalso. change (o1 :: tr2) with ([o1] ++ tr2) in Hh. rewrite app_assoc in Hh.
    pose proof (sign_created _ _ _ _ _ _ Henv H1 ltac:(rewrite N1; exact I) Hh Fo) as K. rewrite X1 in K. exact K.
  - exists a, y, b, p2. split; [reflexivity|]. split; [exact A|].
    rewrite app_comm_cons, app_assoc, (session_after _ _ _ _ A B) in O1. injection O1 as <- <-. exact O3.
Qed.

(** ** C37: errors *)

Lemma interactive_known : forall ins, interactive ins = true -> known_ins ins = true.
Proof.
  intros ins H. unfold interactive in H. cbn [existsb] in H. repeat (apply orb_true_iff in H as [H|H]; [apply N.eqb_eq in H; subst; reflexivity|]). discriminate.
Qed.
Lemma error_wipes : forall E key tr st ins p1 p2 data r st' outs b s, env_ok E -> history E key tr st ->
  event_ok (Apdu CLA ins p1 p2 data r) -> interactive ins = true ->
  step E st (Apdu CLA ins p1 p2 data r) = (st', outs) -> In (OResp b s) outs -> s <> SW_OK ->
  st_key st' = st_key st /\ st_connected st' = st_connected st /\
  (st' = st /\ (s = SW_BUSY \/ s = SW_WRONG_P1P2) \/ cleared st' \/
   st_ctx st' = X_NONE /\ ins = INS_ADDRESS /\ s = SW_ADDRESS_GENERATION_FAILED /\ 252 < address_network data).
Proof.
  intros E key tr st ins p1 p2 data r st' outs b s Henv H Hev Hi Hs Hin Hne.
  pose proof (history_shape _ _ _ _ H) as Sh. assert (M : move E st (Apdu CLA ins p1 p2 data r) st' outs) by (eapply step_move; eauto).
  inversion M; subst; try solve [other];
    try (match goal with K : (if ?b then UiApprove else UiReject) = _ |- _ => destruct b; discriminate K end);
    try (destruct Hin as [Hin|[]]; try discriminate Hin; exfalso; injection Hin as <- <-; congruence).
  - destruct Hin as [Hin|[]]. assert (s0 = s) by congruence. subst s0. do 2 (split; [reflexivity|]). left. split; [reflexivity|].
    match goal with K : refused _ _ _ |- _ => unfold refused in K; cbv beta iota in K; destruct K as [K|[K|[K|[K|K]]]]; decompose [and] K end; try congruence; auto.
    exfalso. rewrite interactive_known in H3 by assumption. discriminate.
  - exfalso. destruct Hin as [].
  - do 2 (split; [reflexivity|]). right. left. split; reflexivity.
  - do 2 (split; [reflexivity|]). right. right. split; [reflexivity|]. split; [reflexivity|]. destruct Hin as [Hin|[]]. split; [congruence|].
    match goal with K : parse_da _ _ = _ |- _ => apply parse_da_spec in K as (-> & _) end.
    match goal with K : ergo_address_from_pubkey _ _ _ = None |- _ => apply -> address_from in K; exact K end.
Qed.
Lemma user_error_wipes : forall E key tr st e st' outs b s, env_ok E -> history E key tr st -> event_ok e ->
  by_user e = true -> step E st e = (st', outs) -> In (OResp b s) outs -> s <> SW_OK ->
  st_key st' = st_key st /\ st_connected st' = st_connected st /\ cleared st'.
Proof.
  intros E key tr st e st' outs b s Henv H Hev Hu Hs Hin Hne.
  pose proof (history_shape _ _ _ _ H) as Sh. assert (M : move E st e st' outs) by (eapply step_move; eauto).
  inversion M; subst; try discriminate Hu; try (destruct Hin; fail);
    try (destruct Hin as [Hin|[]]; try discriminate Hin; exfalso; injection Hin as <- <-; congruence).
  { exfalso. destruct e; try discriminate Hu; match goal with K : refused _ _ _ |- _ => destruct K end. }
  all: try (destruct b0; [destruct Hin as [Hin|[]]; congruence|]).
  all: do 3 (split; [reflexivity|]); reflexivity.
Qed.

(** ** C36: an id may come back *)

Lemma id_repeated : exists E key tr o1 start o2 st sid, env_ok E /\ history E key (tr ++ [o1; start; o2]) st /\
  gives_session_id tr o1 sid /\ is_start INS_SIGN start = true /\ gives_session_id (tr ++ [o1; start]) o2 sid.
Proof.
  pose (d := (BadApdu, []) : obs). pose (t := trace (SIGN_START ++ SIGN_START)).
  exists toy, TOY_KEY, (firstn 1 t), (nth 1 t d), (nth 2 t d), (nth 3 t d), (final (SIGN_START ++ SIGN_START)), 7.
  split; [exact toy_ok|]. split.
  { replace (firstn 1 t ++ [nth 1 t d; nth 2 t d; nth 3 t d]) with t by (vm_compute; reflexivity). apply trace_history. vm_compute. reflexivity. }
  split; [|split; [vm_compute; reflexivity|]].
  - split; [vm_compute; reflexivity|]. right. split; [right; vm_compute; reflexivity|].
    destruct (on_screen (firstn 1 t)) as [[[[q k] f] pages]|] eqn:O; [|vm_compute in O; discriminate O]. exists q, k, f, pages. split; [reflexivity|]. right.
    apply (f_equal (fun x => match x with Some (_, k, _, _) => k | None => U_MENU end)) in O. cbv beta iota in O. rewrite <- O. vm_compute. reflexivity.
  - split; [vm_compute; reflexivity|]. right. split; [right; vm_compute; reflexivity|].
    destruct (on_screen (firstn 1 t ++ [nth 1 t d; nth 2 t d])) as [[[[q k] f] pages]|] eqn:O; [|vm_compute in O; discriminate O]. exists q, k, f, pages. split; [reflexivity|]. right.
    apply (f_equal (fun x => match x with Some (_, k, _, _) => k | None => U_MENU end)) in O. cbv beta iota in O. rewrite <- O. vm_compute. reflexivity.
Qed.
