(** One answer to each command; packets on the wire. *)
From Verif Require Import Lib Env UiFlow P2pkOp App SpecTx SpecTrace SpecApdu SpecScreen SpecDispatch SpecRaw ReadApp RawProofs Moves TraceScreen TraceShow TraceUb DispatchProofs FlowProofs Wire SpecWire.
#[local] Arguments N.eqb : simpl never.
#[local] Arguments N.ltb : simpl never.
#[local] Arguments N.leb : simpl never.
#[local] Arguments N.sub : simpl never.
#[local] Arguments app : simpl never.

Lemma resp_form : forall s, resp s <> OUb -> exists b s', resp s = OResp b s'.
Proof. intros s H. destruct s; cbn in *; try (eexists _, _; reflexivity). congruence. Qed.
Lemma uncommand : forall E key tr st e outs, env_ok E -> history E key (tr ++ [(e, outs)]) st -> by_user e = false -> ~ In OUb outs.
Proof.
  intros E key tr st e outs Henv H U K. destruct (device_ub _ _ _ _ _ _ Henv H K) as [[ -> | -> ] _]; discriminate.
Qed.

Lemma command_output : forall E key tr st e outs, env_ok E -> history E key (tr ++ [(e, outs)]) st -> by_user e = false ->
  (exists b s, outs = [OResp b s]) \/ (on_screen tr = None /\ exists k f pages, outs = [OShow k f pages]).
Proof.
  intros E key tr st e outs Henv H U. pose proof (uncommand _ _ _ _ _ _ Henv H U) as Nub.
  apply history_last in H as (st0 & Hh & Sh & _ & _ & M & D).
  assert (B : st_busy st0 = false -> on_screen tr = None).
  { intro B. destruct (screen_inv_holds E key tr st0 Henv Hh) as [_ K]. rewrite B in K. exact K. }
  destruct M; try (left; eexists _, _; reflexivity);
    try (right; split; [apply B; assumption|eexists _, _, _; reflexivity]);
    try (exfalso; apply D; left; reflexivity);
    try (exfalso; apply Nub; left; reflexivity);
    try (left; destruct (resp_form s) as (bb & s' & ->); [intro K; apply Nub; left; exact K|]; eexists _, _; reflexivity);
    try discriminate U.
  - exfalso. destruct e; try discriminate U; [eapply H; reflexivity|congruence].
  - destruct b; discriminate U.
  - destruct b; discriminate U.
  - destruct b; discriminate U.
  - destruct H0 as [[-> _]|[-> _]]; discriminate U.
  - destruct H0 as [[-> _]|[-> _]]; discriminate U.
Qed.

Lemma user_output : forall E key tr st e outs, env_ok E -> history E key (tr ++ [(e, outs)]) st -> by_user e = true ->
  outs = [] \/ (exists i title body, outs = [OPage i title body]) \/ outs = [OUb] \/
  (exists b s, outs = [OResp b s] /\ on_screen tr <> None /\ on_screen (tr ++ [(e, outs)]) = None).
Proof.
  intros E key tr st e outs Henv H U. apply history_last in H as (st0 & Hh & Sh & _ & _ & M & D).
  assert (B : menu_ui (st_ui st0) = false -> forall b s, exists b0 s0, [OResp b s] = [OResp b0 s0] /\ on_screen tr <> None /\ on_screen (tr ++ [(e, [OResp b s])]) = None).
  { intros B b s. exists b, s. split; [reflexivity|]. split.
    - intro K. rewrite (shape_idle _ Sh (screen_idle_state _ _ _ _ Henv Hh K)) in B. discriminate.
    - rewrite on_screen_snoc. unfold question_after. cbn [snd fst shown_by responds existsb]. rewrite U. reflexivity. }
  destruct M; try (left; reflexivity); try (exfalso; apply D; left; reflexivity); try discriminate U.
  - destruct e; try discriminate U; destruct H.
  - destruct b; right; right; right; apply B; rewrite H; reflexivity.
  - destruct b; right; right; right; apply B; rewrite H; reflexivity.
  - destruct b; right; right; right; apply B; rewrite H; reflexivity.
  - right; right; right. apply B. rewrite H. reflexivity.
  - right; right; right. apply B. rewrite H. reflexivity.
  - right; right; right. apply B. rewrite H. reflexivity.
  - right; right. destruct s; cbn [resp]; try (right; apply B; rewrite H; reflexivity). left. reflexivity.
  - right; right; right. apply B. destruct (st_ui st0); cbn in H; destruct H as [H|H]; try discriminate; reflexivity.
  - right. left. eexists _, _, _. reflexivity.
  - right; right; right. apply B. destruct (st_ui st0); try discriminate; reflexivity.
  - right; right; left. reflexivity.
Qed.

Lemma decision_output : forall E key tr st e outs q, env_ok E -> history E key (tr ++ [(e, outs)]) st ->
  on_screen tr = Some q -> e = UiApprove \/ e = UiReject -> exists b s, outs = [OResp b s].
Proof.
  intros E key tr st e outs q Henv H Ho He. assert (Nub : ~ In OUb outs).
  { intro K. destruct (device_ub _ _ _ _ _ _ Henv H K) as [[K'|K'] _]; destruct He; congruence. }
  apply history_last in H as (st0 & Hh & Sh & _ & Hs & _ & _).
  pose proof (screen_busy _ _ _ _ _ Henv Hh Ho) as B. unfold shape in Sh.
  assert (K : exists o, outs = [o] /\ (o = OUb \/ exists b s, o = OResp b s)).
  { assert (Hs' : ui_action E st0 (match e with UiApprove => true | _ => false end) = (st, outs)) by (destruct He; subst e; exact Hs).
    clear Hs. unfold ui_action in Hs'.
    destruct (st_ctx st0) eqn:X.
    - destruct Sh as [Sh _]. congruence.
    - destruct Sh as (_ & Su & _). rewrite Su in Hs'. unfold ui_action_epk in Hs'. destruct He; subst e; apply (f_equal snd) in Hs'; cbn [snd] in Hs'; subst outs; eexists; (split; [reflexivity|right; eexists _, _; reflexivity]).
    - destruct Sh as (_ & Su & _). rewrite Su in Hs'. unfold ui_action_da in Hs'. destruct He; subst e; try (destruct (da_send c)); apply (f_equal snd) in Hs'; cbn [snd] in Hs'; subst outs; eexists; (split; [reflexivity|right; eexists _, _; reflexivity]).
    - destruct Sh as (_ & Sh). destruct (at_state c); destruct Sh as [? Su]; try congruence. rewrite Su in Hs'. unfold ui_action_attest in Hs'. destruct He; subst e; apply (f_equal snd) in Hs'; cbn [snd] in Hs'; subst outs; eexists; (split; [reflexivity|right; eexists _, _; reflexivity]).
    - destruct Sh as (_ & Sh). destruct (sg_state c).
      + destruct Sh as (_ & Su & token & Hu). rewrite Su in Hs'. unfold ui_action_stx_approve in Hs'. rewrite Hu in Hs'. destruct He; subst e; apply (f_equal snd) in Hs'; cbn [snd] in Hs'; subst outs; eexists; (split; [reflexivity|right; eexists _, _; reflexivity]).
      + destruct Sh as [[? _]|[(_ & Su & t & o & Hu & Ht)|(_ & Su)]]; [congruence| |].
        * rewrite Su in Hs'. unfold ui_action_stx_output in Hs'. rewrite Hu, Ht in Hs'. destruct He; subst e; apply (f_equal snd) in Hs'; cbn [snd] in Hs'; subst outs; eexists; (split; [reflexivity|right; eexists _, _; reflexivity]).
        * rewrite Su in Hs'. unfold ui_action_stx_tx in Hs'. destruct He; subst e; apply (f_equal snd) in Hs'; cbn [snd] in Hs'; subst outs; eexists; (split; [reflexivity|]).
          -- destruct (p2pk_send_response E (sg_op c)) as [x|x]; [right; eexists _, _; reflexivity|].
             destruct x; cbn [resp]; try (right; eexists _, _; reflexivity). left. reflexivity.
          -- right. eexists _, _. reflexivity. }
  destruct K as (o & -> & [->|(b & s & ->)]); [exfalso; apply Nub; left; reflexivity|]. eexists _, _. reflexivity.
Qed.

Lemma count_ok : forall E key tr st, env_ok E -> history E key tr st ->
  command_count tr = (answer_count tr + open_questions tr)%nat.
Proof.
  intros E key tr. induction tr as [|[e outs] tr IH] using rev_ind; intros st Henv H; [reflexivity|].
  pose proof H as H0. apply history_last in H0 as (st0 & Hh & _). specialize (IH _ Henv Hh).
  assert (C : command_count (tr ++ [(e, outs)]) = (command_count tr + if by_user e then 0 else 1)%nat).
  { unfold command_count. rewrite filter_app, app_length. cbn [filter fst]. destruct (by_user e); reflexivity. }
  assert (A : answer_count (tr ++ [(e, outs)]) = (answer_count tr + length (filter (fun o => match o with OResp _ _ => true | _ => false end) outs))%nat).
  { unfold answer_count. rewrite map_app, concat_app, filter_app, app_length. cbn [map concat snd]. rewrite app_nil_r. reflexivity. }
  assert (O : on_screen (tr ++ [(e, outs)]) = question_after (on_screen tr) (e, outs)) by apply on_screen_snoc.
  unfold obs in *. rewrite C, A. clear C A.
  destruct (by_user e) eqn:U.
  - destruct (user_output _ _ _ _ _ _ Henv H U) as [->|[(i & title & body & ->)|[->|(b & s & -> & Q & Q')]]];
      unfold open_questions in *; rewrite ?O; unfold question_after; cbn [fst snd shown_by responds existsb filter length]; rewrite ?andb_false_r, ?U; cbn [andb orb].
    + lia.
    + lia.
    + lia.
    + destruct (on_screen tr); [lia|congruence].
  - destruct (command_output _ _ _ _ _ _ Henv H U) as [(b & s & ->)|(Q & k & f & pages & ->)];
      unfold open_questions in *; rewrite ?O; unfold question_after; cbn [fst snd shown_by responds existsb filter length]; rewrite ?andb_false_r, ?U; cbn [andb orb].
    + lia.
    + rewrite Q in IH. lia.
Qed.

(** * Packets *)
Lemma be2 : forall s, be_bytes 2 (sw_num s) = [sw_num s / 256; sw_num s mod 256].
Proof. intro s. destruct s; vm_compute; reflexivity. Qed.
Lemma sw_num_inj : forall s s', sw_num s = sw_num s' -> s = s'.
Proof. intros s s' H. destruct s; destruct s'; try reflexivity; discriminate H. Qed.
Lemma sw_num_small : forall s, sw_num s < 65536.
Proof. intros s. destruct s; reflexivity. Qed.
Lemma packet_inj : forall d s d' s', packet_of d s = packet_of d' s' -> d = d' /\ s = s'.
Proof.
  intros d s d' s' H. unfold packet_of in H.
  assert (L : length d = length d') by (apply (f_equal (@length N)) in H; rewrite !app_length in H; cbn [length] in H; lia).
  apply app_inv_length in H; [|exact L].
  destruct H as [-> H]. split; [reflexivity|]. apply sw_num_inj.
  assert (H1 : sw_num s / 256 = sw_num s' / 256) by congruence. assert (H2 : sw_num s mod 256 = sw_num s' mod 256) by congruence.
  rewrite (N.div_mod (sw_num s) 256), (N.div_mod (sw_num s') 256) by discriminate. rewrite H1, H2. reflexivity.
Qed.

Lemma write_over_len : forall l io, blen io = 260 -> blen l <= 260 -> blen (write_over l io) = 260.
Proof. intros l io H L. unfold write_over, blen in *. rewrite app_length, skipn_length. lia. Qed.
Lemma write_over_received : forall l io, received (write_over l io) (blen l) = l.
Proof.
  intros l io. unfold received, write_over, blen. rewrite Nnat.Nat2N.id, firstn_app, Nat.sub_diag, firstn_all. cbn [firstn]. apply app_nil_r.
Qed.
Lemma send_all_ok : forall outs io, blen io = 260 -> (forall b s, In (OResp b s) outs -> (length b + 2 <= 260)%nat) ->
  exists io', blen io' = 260 /\ send_all outs io = (io', map on_the_wire outs).
Proof.
  induction outs as [|o t IH]; intros io Hi Hb; [exists io; split; [exact Hi|reflexivity]|].
  assert (Ht : forall b s, In (OResp b s) t -> (length b + 2 <= 260)%nat) by (intros; eapply Hb; right; eassumption).
  destruct o; try (destruct (IH io Hi Ht) as (io' & L & Q); exists io'; (split; [exact L|]); cbn [send_all map on_the_wire]; rewrite Q; reflexivity).
  cbn [send_all map on_the_wire]. unfold io_send.
  assert (Hl : (length data + 2 <= 260)%nat) by (eapply Hb; left; reflexivity).
  destruct (N.ltb_spec (IO_SIZE - 2) (blen data)) as [K|K]; [unfold blen, IO_SIZE in K; lia|]. rewrite be2. fold (packet_of data s).
  destruct (IH (write_over (packet_of data s) io)) as (io' & L & Q).
  - apply write_over_len; [exact Hi|]. unfold packet_of, blen. rewrite app_length. cbn [length]. lia.
  - exact Ht.
  - exists io'. split; [exact L|]. rewrite Q. reflexivity.
Qed.

Lemma heard_ok : forall e, wire_ok e -> event_ok (heard e).
Proof.
  intros [packet r|e] H.
  - destruct H as (B & L & R1 & R2). pose proof (decoded_ok (RawApdu packet (blen packet) r)) as K. cbn [decoded] in K.
    unfold received, blen in K. rewrite Nnat.Nat2N.id, firstn_all in K. apply K. cbn [raw_ok]. unfold blen. repeat split; try assumption. lia.
  - destruct e; try discriminate H; exact I.
Qed.
Lemma raw_heard : forall E st e io, wire_ok e -> 
  raw_step E st (match e with Receive packet r => RawApdu (write_over packet io) (blen packet) r | Press e => RawUi e end) = step E st (heard e).
Proof.
  intros E st [packet r|e] io H; [|reflexivity]. destruct H as (B & _). cbn [raw_step heard]. rewrite raw_apdu_recv.
  - rewrite write_over_received. reflexivity.
  - rewrite write_over_received. exact B.
  - unfold write_over, blen. rewrite app_length. lia.
Qed.
Lemma wire_sim : forall E key tr st io e, env_ok E -> history E key tr st -> blen io = 260 -> wire_ok e ->
  ~ In ODiverge (snd (step E st (heard e))) ->
  exists io', blen io' = 260 /\ wire_step E (mk_wire st io) e = (mk_wire (fst (step E st (heard e))) io', map on_the_wire (snd (step E st (heard e)))) /\
    history E key (tr ++ [(heard e, snd (step E st (heard e)))]) (fst (step E st (heard e))).
Proof.
  intros E key tr st io e Henv H Hi Hok Hd.
  assert (Hn : history E key (tr ++ [(heard e, snd (step E st (heard e)))]) (fst (step E st (heard e)))).
  { apply (history_step E key tr st); [exact H|apply heard_ok; exact Hok| |exact Hd]. destruct (step E st (heard e)); reflexivity. }
  pose proof (proj2 (answers _ _ _ _ _ _ Henv Hn)) as Hs.
  pose proof (raw_heard E st e io Hok) as R.
  destruct (step E st (heard e)) as [st' outs] eqn:St. cbn [fst snd] in *.
  destruct (send_all_ok outs (match e with Receive packet _ => write_over packet io | Press _ => io end)) as (io' & L & Q).
  - destruct e as [packet r|e]; [|exact Hi]. apply write_over_len; [exact Hi|apply Hok].
  - intros b s K. apply (Hs b s K).
  - exists io'. split; [exact L|]. split; [|exact Hn]. unfold wire_step. destruct e as [packet r|e]; cbn [w_st w_io]; rewrite R, Q; reflexivity.
Qed.
Lemma no_diverge_wire : forall outs, In ODiverge outs <-> In (Screen ODiverge) (map on_the_wire outs).
Proof.
  intro outs. rewrite in_map_iff. split.
  - intro H. exists ODiverge. split; [reflexivity|exact H].
  - intros (o & K & Ho). destruct o; try discriminate K. exact Ho.
Qed.

Lemma send_diverge : forall outs io, In ODiverge outs -> In (Screen ODiverge) (snd (send_all outs io)).
Proof.
  induction outs as [|o t IH]; intros io K; [destruct K|].
  destruct K as [->|K]; [cbn [send_all]; destruct (send_all t io); left; reflexivity|].
  destruct o; cbn [send_all]; try (specialize (IH io K); destruct (send_all t io); right; exact IH).
  unfold io_send. specialize (IH (write_over (if IO_SIZE - 2 <? blen data then be_bytes 2 (sw_num SW_WRONG_RESPONSE_LENGTH)
    else data ++ be_bytes 2 (sw_num s)) io) K). cbv zeta. destruct (send_all t _) in *. right. exact IH.
Qed.
Lemma wire_decodes : forall E key io tr w, env_ok E -> blen io = 260 -> wire_history E key io tr w ->
  exists tr', history E key tr' (w_st w) /\ map fst tr' = map (fun o => heard (fst o)) tr /\
    map snd tr = map (fun o => map on_the_wire (snd o)) tr'.
Proof.
  intros E key io tr w Henv Hi H.
  assert (K : blen (w_io w) = 260 /\ exists tr', history E key tr' (w_st w) /\ map fst tr' = map (fun o => heard (fst o)) tr /\
    map snd tr = map (fun o => map on_the_wire (snd o)) tr').
  { induction H as [|tr w e outs w' H IH Hok Hs Hd].
    - split; [exact Hi|]. exists []. split; [apply history_start|]. split; reflexivity.
    - destruct IH as (L & tr' & Hh & Q1 & Q2). destruct w as [st io0]. cbn [w_st w_io] in *.
      assert (Nd : ~ In ODiverge (snd (step E st (heard e)))).
      { intro K. apply Hd. pose proof (raw_heard E st e io0 Hok) as R. unfold wire_step in Hs. cbn [w_st w_io] in Hs.
        assert (S : exists io1 io2 l, send_all (snd (step E st (heard e))) io1 = (io2, l) /\ l = outs).
        { destruct e as [packet r|e]; rewrite R in Hs; destruct (step E st _) as [st1 o1]; cbn [snd].
          - destruct (send_all o1 (write_over packet io0)) as [i l] eqn:Q. eexists _, _, _. split; [exact Q|congruence].
          - destruct (send_all o1 io0) as [i l] eqn:Q. eexists _, _, _. split; [exact Q|congruence]. }
        destruct S as (io1 & io2 & l & S & <-). pose proof (send_diverge _ io1 K) as Q. rewrite S in Q. exact Q. }
      destruct (wire_sim E key tr' st io0 e Henv Hh L Hok Nd) as (io' & L' & W & Hn).
      rewrite W in Hs. assert (w' = mk_wire (fst (step E st (heard e))) io') as -> by congruence.
      assert (outs = map on_the_wire (snd (step E st (heard e)))) as -> by congruence.
      split; [exact L'|]. eexists. split; [exact Hn|]. rewrite !map_app. cbn [map fst snd]. split; f_equal; assumption. }
  apply K.
Qed.

Lemma heard_spoken : forall e, heard (spoken e) = e.
Proof. intros []; cbn [spoken heard command_of]; try reflexivity. rewrite N.eqb_refl. reflexivity. Qed.
Lemma spoken_ok : forall e, event_ok e -> wire_ok (spoken e).
Proof.
  intros e H. destruct (encoded_ok [] e eq_refl H) as [R _]. destruct e; try reflexivity; cbn [spoken wire_ok encoded raw_ok] in *.
  - rewrite app_nil_r in R. destruct R as (B & _ & R1 & R2). split; [exact B|]. split; [|split; assumption].
    cbn [event_ok] in H. unfold blen. cbn [length]. decompose [and] H. lia.
  - split; [reflexivity|]. split; [cbn; lia|]. split; constructor.
Qed.
Lemma wire_encodes : forall E key io tr st, env_ok E -> blen io = 260 -> history E key tr st ->
  exists w, w_st w = st /\ wire_history E key io (map (fun o => (spoken (fst o), map on_the_wire (snd o))) tr) w.
Proof.
  intros E key io tr st Henv Hi H.
  assert (K : exists w, blen (w_io w) = 260 /\ w_st w = st /\ wire_history E key io (map (fun o => (spoken (fst o), map on_the_wire (snd o))) tr) w).
  { induction H as [|tr st e outs st' H IH Hok Hs Hd].
    - eexists. split; [|split; [|apply wire_start]]; [exact Hi|reflexivity].
    - destruct IH as ([st1 io1] & L & Q & W). cbn [w_st w_io] in *. subst st1.
      destruct (wire_sim E key tr st io1 (spoken e) Henv H L (spoken_ok _ Hok)) as (io' & L' & Ws & _).
      { rewrite heard_spoken, Hs. exact Hd. }
      rewrite heard_spoken, Hs in Ws. cbn [fst snd] in Ws. eexists. split; [|split; [|rewrite map_app; cbn [map fst snd]; eapply wire_next; [exact W|apply spoken_ok; exact Hok|exact Ws|]]].
      + exact L'.
      + reflexivity.
      + rewrite <- no_diverge_wire. exact Hd. }
  destruct K as (w & _ & K). exists w. exact K.
Qed.
