(** The wallet of SpecWallet on histories of the application. *)
From Verif Require Import Lib Env TxTable UiFlow P2pkOp App SpecTree SpecTrace SpecTx SpecAmounts SpecApdu
  SpecScreen SpecRequest SpecSign SpecRules SpecAccept SpecAttest SpecStart Moves TraceSign TraceAttest
  TraceScreen TraceShow DispatchProofs SessionProofs AttestProofs AcceptProofs AttestAccept OpenAccept
  SpecRaw Wire SpecWire WireProofs HostAttest HostSign HostRun Buttons Whole SpecWhole SpecHost SpecWallet WalletPages.

#[local] Arguments N.eqb : simpl never.
#[local] Arguments N.ltb : simpl never.
#[local] Arguments N.leb : simpl never.
#[local] Arguments N.sub : simpl never.
#[local] Arguments blen : simpl never.
#[local] Arguments num : simpl never.
#[local] Arguments slice : simpl never.
#[local] Arguments app : simpl never.

(** ** What the user does without an answer *)
Definition unheard (o : obs) : Prop := by_user (fst o) = true /\ shown_by (snd o) = None /\ responds (snd o) = false /\ ~ In OUb (snd o).
Lemma unheard_refused : forall outs, shown_by outs = None -> responds outs = false -> accepted outs = false.
Proof.
  induction outs as [|o outs IH]; intros S R; [reflexivity|]. cbn [responds existsb] in R. unfold responds in *. cbn [existsb] in R. apply orb_false_iff in R as [R1 R2].
  unfold accepted. cbn [existsb]. destruct o; try discriminate R1; try discriminate S; cbn [success orb]; apply IH; assumption.
Qed.
Lemma unheard_start : forall ins o, unheard o -> is_start ins o = false.
Proof. intros ins [e outs] (H & _). cbn [fst] in H. destruct e; try discriminate H; reflexivity. Qed.
Lemma unheard_cont : forall ins o, unheard o -> continuation ins o = None.
Proof. intros ins [e outs] (H & _). cbn [fst] in H. destruct e; try discriminate H; reflexivity. Qed.
Lemma unheard_approval : forall o, unheard o -> is_approval o = false.
Proof. intros [e outs] (_ & S & R & _). cbn [snd] in *. pose proof (unheard_refused _ S R) as A. destruct e; try reflexivity; exact A. Qed.
Lemma no_answer : forall outs b s, responds outs = false -> ~ In (OResp b s) outs.
Proof. intros outs b s R K. assert (responds outs = true); [|congruence]. apply existsb_exists. exists (OResp b s). auto. Qed.
Lemma unheard_keeps : forall ins sid o, unheard o -> keeps ins sid o.
Proof.
  intros ins sid [e outs] (H & _ & R & _). cbn [fst snd] in *. destruct e; try discriminate H; intros b s K; exfalso; exact (no_answer _ _ _ R K).
Qed.
Lemma unheard_signature : forall o, unheard o -> signature o = None.
Proof.
  intros [e outs] (_ & _ & R & _). unfold signature. cbn [snd] in *. destruct outs as [|[] [|? ?]]; try reflexivity; discriminate R.
Qed.
Lemma user_malformed : forall o, by_user (fst o) = true -> ~ malformed_start o.
Proof. intros [e outs] H (cla & p2 & d & r & K & _). cbn [fst] in H. assert (e = Apdu cla INS_ATTEST 1 p2 d r) as -> by congruence. discriminate H. Qed.
Lemma attesting_snoc : forall sid tr start body o, attesting sid tr start body -> is_start INS_ATTEST o = false -> keeps INS_ATTEST sid o ->
  ~ malformed_start o -> attesting sid (tr ++ [o]) start (body ++ [o]).
Proof.
  intros sid tr start body o ((O1 & O2 & O3) & M) S K Ma. split; [split; [|split]|].
  - rewrite session_snoc, S, O1. reflexivity.
  - apply Forall_app. split; [exact O2|]. constructor; [exact K|constructor].
  - destruct O3 as [O3|(b1 & e & b2 & -> & O3)]; [left; exact O3|right]. exists b1, e, (b2 ++ [o]). rewrite <- app_assoc. split; [reflexivity|exact O3].
  - apply Forall_app. split; [exact M|]. constructor; [exact Ma|constructor].
Qed.
Lemma attesting_unheard : forall sid tr start body o, attesting sid tr start body -> unheard o -> attesting sid (tr ++ [o]) start (body ++ [o]).
Proof.
  intros sid tr start body o A Hu. apply attesting_snoc; [exact A|apply unheard_start; exact Hu|apply unheard_keeps; exact Hu|apply user_malformed; exact (proj1 Hu)].
Qed.
Lemma signing_unheard : forall sid tr start body o, signing sid tr start body -> unheard o -> signing sid (tr ++ [o]) start (body ++ [o]).
Proof.
  intros sid tr start body o A Hu. apply signing_snoc; [exact A|apply unheard_start; exact Hu|apply unheard_keeps; exact Hu|apply unheard_signature; exact Hu|apply user_malformed; exact (proj1 Hu)].
Qed.
Lemma streamed_unheard : forall start body o, unheard o -> streamed_box start (body ++ [o]) = streamed_box start body.
Proof. intros start body o Hu. rewrite streamed_snoc. unfold sb_step. rewrite unheard_cont by exact Hu. reflexivity. Qed.
Lemma description_unheard : forall body o, unheard o -> description (body ++ [o]) = description body.
Proof. intros body o Hu. rewrite description_snoc. unfold describe. rewrite unheard_cont, unheard_approval by exact Hu. reflexivity. Qed.
Lemma screen_unheard : forall tr o, unheard o -> on_screen (tr ++ [o]) = on_screen tr.
Proof. intros tr o (_ & S & R & _). rewrite on_screen_snoc. unfold question_after. rewrite S, R, andb_false_r. reflexivity. Qed.
(** Many of them. *)
Lemma signing_all : forall qs sid tr start body, Forall unheard qs -> signing sid tr start body -> signing sid (tr ++ qs) start (body ++ qs).
Proof.
  induction qs as [|o qs IH]; intros sid tr start body F A; [rewrite !app_nil_r; exact A|]. inversion F; subst.
  change (o :: qs) with ([o] ++ qs). rewrite !app_assoc. apply IH; [assumption|]. apply signing_unheard; assumption.
Qed.
Lemma description_all : forall qs body, Forall unheard qs -> description (body ++ qs) = description body.
Proof.
  induction qs as [|o qs IH]; intros body F; [rewrite app_nil_r; reflexivity|]. inversion F; subst.
  change (o :: qs) with ([o] ++ qs). rewrite app_assoc, IH by assumption. apply description_unheard. assumption.
Qed.
Lemma streamed_all : forall qs start body, Forall unheard qs -> streamed_box start (body ++ qs) = streamed_box start body.
Proof.
  induction qs as [|o qs IH]; intros start body F; [rewrite app_nil_r; reflexivity|]. inversion F; subst.
  change (o :: qs) with ([o] ++ qs). rewrite app_assoc, IH by assumption. apply streamed_unheard. assumption.
Qed.
Lemma screen_all : forall qs tr, Forall unheard qs -> on_screen (tr ++ qs) = on_screen tr.
Proof.
  induction qs as [|o qs IH]; intros tr F; [rewrite app_nil_r; reflexivity|]. inversion F; subst.
  change (o :: qs) with ([o] ++ qs). rewrite app_assoc, IH by assumption. apply screen_unheard. assumption.
Qed.
Lemma session_all : forall qs ins tr start body, Forall unheard qs -> session_of ins tr = Some (start, body) -> session_of ins (tr ++ qs) = Some (start, body ++ qs).
Proof.
  induction qs as [|o qs IH]; intros ins tr start body F A; [rewrite !app_nil_r; exact A|]. inversion F; subst.
  change (o :: qs) with ([o] ++ qs). rewrite !app_assoc. apply IH; [assumption|]. rewrite session_snoc, unheard_start, A by assumption. reflexivity.
Qed.

(** ** The state while a question is there *)
Definition spoke (x : result) : Prop := snd x = [OUb] \/ exists b s, snd x = [OResp b s].
Lemma spoke_resp : forall st s, spoke (st, [resp s]).
Proof. intros st s. destruct s; first [left; reflexivity | right; do 2 eexists; reflexivity]. Qed.
Lemma action_spoke : forall E st ok, st_ui st <> U_MENU -> st_ui st <> U_ABOUT -> spoke (ui_action E st ok).
Proof.
  intros E st ok N1 N2. unfold ui_action. destruct (st_ui st); try congruence; destruct (st_ctx st); try (left; reflexivity).
  all: unfold ui_action_epk, ui_action_da, ui_action_attest, ui_action_stx_approve, ui_action_stx_output, ui_action_stx_tx; cbv zeta.
  all: repeat match goal with |- context [match ?x with _ => _ end] => lazymatch x with context [match _ with _ => _ end] => fail | _ => destruct x end end.
  all: first [apply spoke_resp | left; reflexivity | right; do 2 eexists; reflexivity].
Qed.
Lemma path_spoke : forall st, snd (ui_path_both st) = [] /\ fst (ui_path_both st) = st \/ spoke (ui_path_both st).
Proof.
  intros st. unfold ui_path_both. destruct (st_ui st) eqn:U; try (left; split; reflexivity). right. destruct (st_ctx st) eqn:X; try (left; reflexivity).
  pose proof (action_spoke (mk_env (fun _ => []) (fun _ _ => []) (fun _ => None) (fun _ => None) 7) st true) as K. unfold ui_action in K. rewrite U, X in K. apply K; discriminate.
Qed.
Lemma unheard_step : forall E st e st' outs, st_ui st <> U_MENU -> st_ui st <> U_ABOUT -> by_user e = true -> step E st e = (st', outs) -> responds outs = false -> ~ In OUb outs ->
  exists d, st' = set_dyn st d.
Proof.
  intros E st e st' outs N1 N2 Hu H R Nu.
  assert (Same : forall x, set_dyn x (st_dyn x) = x) by (intros []; reflexivity).
  assert (Keep : (st, @nil output) = (st', outs) -> exists d, st' = set_dyn st d) by (intro K; exists (st_dyn st); rewrite Same; congruence).
  assert (Ub : forall x, (x, [OUb]) = (st', outs) -> exists d, st' = set_dyn st d) by (intros x K; exfalso; apply Nu; assert (outs = [OUb]) as -> by congruence; left; reflexivity).
  assert (Ans : forall x : result, spoke x -> x = (st', outs) -> exists d, st' = set_dyn st d).
  { intros x [K|(b & s & K)] ->; cbn [snd] in K; subst outs; [exfalso; apply Nu; left; reflexivity|discriminate R]. }
  assert (Dyn : forall y, display_dynamic E st y = (st', outs) -> exists d, st' = set_dyn st d).
  { intros y K. unfold display_dynamic in K. destruct (snd y); [|exists (fst y); congruence].
    destruct (page_of E _ _ n) as [[t b]|s]; [exists (fst y); congruence|]. destruct s; try (eapply Ub; exact K); (eapply Ans; [|exact K]; right; do 2 eexists; reflexivity). }
  destruct e; try discriminate Hu; cbn [step] in H.
  - eapply Ans; [|exact H]. apply action_spoke; assumption.
  - eapply Ans; [|exact H]. apply action_spoke; assumption.
  - destruct (path_spoke st) as [[K1 K2]|K]; [|eapply Ans; [exact K|exact H]]. apply Keep. rewrite H in K1, K2. cbn [fst snd] in *. congruence.
  - destruct (has_pages (st_ui st)); [eapply Dyn; exact H|apply Keep; exact H].
  - destruct (has_pages (st_ui st)); [eapply Dyn; exact H|apply Keep; exact H].
  - destruct (st_ui st); try congruence; apply Keep; exact H.
  - destruct (st_ui st); try congruence; apply Keep; exact H.
Qed.


Definition asking_kind (k : ui_kind) : Prop := k = U_ATTEST \/ k = U_STX_APPROVE \/ k = U_STX_OUTPUT \/ k = U_STX_TX.
Lemma set_dyn_twice : forall st d d', set_dyn (set_dyn st d) d' = set_dyn st d'. Proof. intros [] d d'. reflexivity. Qed.
Lemma set_dyn_ui : forall st d, st_ui (set_dyn st d) = st_ui st. Proof. intros [] d. reflexivity. Qed.
(** After a question and unheard events: the state at the question, but for the page counters. *)
Lemma question_state : forall E key h e k f pages qs st, env_ok E -> history E key (h ++ (e, [OShow k f pages]) :: qs) st -> asking_kind k -> Forall unheard qs ->
  exists st1 d, history E key (h ++ [(e, [OShow k f pages])]) st1 /\ st_ui st1 = k /\ st = set_dyn st1 d.
Proof.
  intros E key h e k f pages qs. induction qs as [|[e' outs'] qs IH] using rev_ind; intros st Henv H Hk F.
  - exists st, (st_dyn st). split; [exact H|]. split; [|destruct st; reflexivity]. eapply screen_state; [exact Henv|exact H|]. rewrite on_screen_snoc. reflexivity.
  - apply Forall_app in F as [F1 F2]. inversion F2 as [|x l (U1 & U2 & U3 & U4) _]; subst. cbn [fst snd] in *.
    change ((e, [OShow k f pages]) :: qs ++ [(e', outs')]) with (((e, [OShow k f pages]) :: qs) ++ [(e', outs')]) in H. rewrite app_assoc in H.
    apply history_last in H as (st0 & H0 & _ & _ & St & _). destruct (IH _ Henv H0 Hk F1) as (st1 & d & H1 & Ui & ->).
    destruct (unheard_step E (set_dyn st1 d) e' st outs') as [d' ->]; try assumption; try (rewrite set_dyn_ui, Ui; destruct Hk as [-> |[-> |[-> | ->]]]; discriminate).
    exists st1, d'. rewrite set_dyn_twice. auto.
Qed.
Lemma approve_dyn : forall E st d, snd (step E (set_dyn st d) UiApprove) = snd (step E st UiApprove).
Proof.
  intros E [c k m b x u f d0] d. unfold set_dyn. cbn [step st_connected st_key st_cmd st_busy st_ctx st_ui st_flow st_dyn]. unfold ui_action. cbn [st_ui st_ctx].
  destruct u, x; try reflexivity;
  unfold ui_action_epk, ui_action_da, ui_action_attest, ui_action_stx_approve, ui_action_stx_output, ui_action_stx_tx;
  repeat match goal with |- context [match ?x with _ => _ end] => lazymatch x with context [match _ with _ => _ end] => fail | _ => destruct x end end; reflexivity.
Qed.
Lemma path_approve : forall E st, responds (snd (step E st UiPathBoth)) = true -> st_ui st = U_STX_APPROVE /\ step E st UiPathBoth = step E st UiApprove.
Proof.
  intros E st H. cbn [step] in *. unfold ui_path_both, ui_action in *. destruct (st_ui st); try discriminate H. split; [reflexivity|]. destruct (st_ctx st); try discriminate H. reflexivity.
Qed.
(** The answer to the question is what it would have been at once. *)
Lemma approved_later : forall E key h e k f pages qs st ue st' outs o1 st1', env_ok E -> history E key (h ++ (e, [OShow k f pages]) :: qs) st -> asking_kind k -> Forall unheard qs ->
  ue = UiApprove \/ ue = UiPathBoth -> step E st ue = (st', outs) -> responds outs = true ->
  history E key (h ++ [(e, [OShow k f pages]); (UiApprove, o1)]) st1' -> outs = o1 /\ (ue = UiApprove \/ k = U_STX_APPROVE).
Proof.
  intros E key h e k f pages qs st ue st' outs o1 st1' Henv H Hk F Hue St R H1.
  destruct (question_state _ _ _ _ _ _ _ _ _ Henv H Hk F) as (st1 & d & Hq & Ui & ->).
  change (h ++ [(e, [OShow k f pages]); (UiApprove, o1)]) with (h ++ [(e, [OShow k f pages])] ++ [(UiApprove, o1)]) in H1. rewrite app_assoc in H1.
  apply history_last in H1 as (st2 & H2 & _ & _ & St1 & _). assert (st2 = st1) as -> by (eapply SessionProofs.history_fun; eassumption).
  pose proof (approve_dyn E st1 d) as A. rewrite St1 in A. cbn [snd] in A.
  destruct Hue as [-> | ->].
  - rewrite St in A. cbn [snd] in A. auto.
  - destruct (path_approve E (set_dyn st1 d)) as [K1 K2]; [rewrite St; exact R|]. rewrite K2 in St. rewrite St in A. cbn [snd] in A. split; [exact A|]. right. rewrite set_dyn_ui, Ui in K1. exact K1.
Qed.
Lemma same_out : forall E key h e o o' st st', history E key (h ++ [(e, o)]) st -> history E key (h ++ [(e, o')]) st' -> o = o'.
Proof.
  intros E key h e o o' st st' H H'. apply history_last in H as (s & H & _ & _ & S & _), H' as (s' & H' & _ & _ & S' & _).
  assert (s' = s) as -> by (eapply SessionProofs.history_fun; eassumption). congruence.
Qed.
Lemma history_cut : forall E key a b st, history E key (a ++ b) st -> exists st', history E key a st'.
Proof.
  intros E key a b. induction b as [|[e o] b IH] using rev_ind; intros st H; [rewrite app_nil_r in H; eauto|].
  rewrite app_assoc in H. apply history_last in H as (s & H & _). eauto.
Qed.

(** ** Where the wallet is *)
Section Plan.
  Variables (E : env) (key : bytes) (p : plan).
  Let w := pl_tx p.
  Definition frame_at (x : w_box * bytes) (i : N) : bytes := tagged E key (frame_of E (described (fst x)) i).
  Definition frames_of (x : w_box * bytes) : list bytes := map (frame_at x) (frame_numbers (fst x)).
  Definition ask_frame (i : N) : command := (0x05, [i]).
  Definition first_sign (r : rnd) : event := Apdu CLA INS_SIGN 1 (pl_p2 p) (pl_start p) r.
  (** A command that fits in a packet. *)
  Definition sayable (c : command) : Prop := fst c < 256 /\ bytes_ok (snd c) = true /\ (length (snd c) <= 255)%nat.
  Definition holds (R : rnd -> Prop) (s : wallet) (h : list obs) : Prop :=
    match s with
    | WA_OPEN got todo => exists dn, w_inputs w = dn ++ todo /\ got = map frames_of dn
    | WA_ATTEST got todo sid frames cmds => (sid < 256 /\ Forall sayable cmds) /\ exists dn x rest start body, w_inputs w = dn ++ todo /\ got = map frames_of dn /\ todo = x :: rest /\
        attesting sid h start body /\
        ((frames = [] /\ exists cs, cs <> [] /\ cmds = cs ++ map ask_frame (frame_numbers (fst x)) /\ Forall (fun c => fst c <> 1 /\ fst c <> 5) cs /\
            chain sb_cmd admissible_box (streamed_box start body) cs /\ after sb_cmd (streamed_box start body) cs = described (fst x)) \/
         (streamed_box start body = described (fst x) /\ exists is js, js <> [] /\ frame_numbers (fst x) = is ++ js /\ frames = map (frame_at x) is /\ cmds = map ask_frame js))
    | WA_SIGN sid cmds => (sid < 256 /\ Forall sayable cmds) /\ exists body r f cs, R r /\ signing sid h (first_sign r, [OShow U_STX_APPROVE f []]) body /\ cmds = cs ++ [(0x20, [])] /\
        Forall (fun c => fst c <> 1 /\ fst c <> 0x20) cs /\
        chain describe_cmd (admissible E key) (strip (description body)) cs /\ after describe_cmd (strip (description body)) cs = wanted E w
    | WA_SIGNED sig => exists r f, R r /\ signed_message E (first_sign r, f) (bytes_to_sign E (wanted E w)) sig
    | WA_FAILED a => a = [0xE0; 0x17] /\ exists r f, R r /\ zero_challenge E (first_sign r, f) (bytes_to_sign E (wanted E w))
    end.
  Lemma holds_unheard : forall R s h o, holds R s h -> unheard o -> holds R s (h ++ [o]).
  Proof.
    intros R s h o H Hu. destruct s; cbn [holds] in *; try exact H.
    - destruct H as (H0 & dn & x & rest & start & body & H1 & H2 & H3 & At & H4). split; [exact H0|]. exists dn, x, rest, start, (body ++ [o]). do 3 (split; [assumption|]).
      split; [apply attesting_unheard; assumption|]. rewrite streamed_unheard by exact Hu. exact H4.
    - destruct H as (H0 & body & r & f & cs & H1 & Sg & H2). split; [exact H0|]. exists (body ++ [o]), r, f, cs. split; [exact H1|]. split; [apply signing_unheard; assumption|].
      rewrite description_unheard by exact Hu. exact H2.
  Qed.
  Definition next_event (s : wallet) (r : rnd) : option event :=
    match s with
    | WA_OPEN _ (x :: _) => Some (Apdu CLA INS_ATTEST 1 1 (box_header (fst x)) r)
    | WA_OPEN _ [] => Some (first_sign r)
    | WA_ATTEST _ _ sid _ (c :: _) => Some (Apdu CLA INS_ATTEST (fst c) sid (snd c) r)
    | WA_SIGN sid (c :: _) => Some (Apdu CLA INS_SIGN (fst c) sid (snd c) r)
    | _ => None
    end.
  Lemma heard_speak : forall ins p1 p2 data r, command_of (speak ins p1 p2 data) r = Apdu CLA ins p1 p2 data r.
  Proof. intros. unfold command_of, speak. rewrite N.eqb_refl. reflexivity. Qed.
  Lemma next_heard : forall s packet r, next_packet p s = Some packet -> next_event s r = Some (command_of packet r).
  Proof.
    intros s packet r H. destruct s as [got [|x todo]|got todo sid frames [|c cmds]|sid [|c cmds]|sig|a]; cbn [next_packet next_event] in *; try discriminate H;
      injection H as <-; unfold opening; rewrite heard_speak; reflexivity.
  Qed.
  (** The wallet after an answer of success. *)
  Definition heard_ok (s : wallet) (data : bytes) : wallet :=
    match s with
    | WA_OPEN got (x :: todo) =>
        WA_ATTEST got (x :: todo) (hd 0 data) [] (box_commands (fst x) ++ map ask_frame (frame_numbers (fst x)))
    | WA_OPEN got [] => WA_SIGN (hd 0 data) (wallet_commands (pl_tx p) got ++ [(0x20, [])])
    | WA_ATTEST got todo sid frames (c :: cmds) =>
        let frames := if fst c =? 0x05 then frames ++ [data] else frames in
        match cmds with [] => WA_OPEN (got ++ [frames]) (tl todo) | _ => WA_ATTEST got todo sid frames cmds end
    | WA_SIGN sid [_] => WA_SIGNED data
    | WA_SIGN sid (_ :: cmds) => WA_SIGN sid cmds
    | s => s
    end.
  Lemma hears_ok : forall s b, hears p s (packet_of b SW_OK) = heard_ok s b.
  Proof.
    intros s b. unfold hears. change (packet_of b SW_OK) with (b ++ [0x90; 0]). assert (L : (length (b ++ [144%N; 0%N]) - 2 = length b)%nat) by (rewrite app_length; cbn [length]; lia).
    rewrite L, firstn_app, skipn_app, firstn_all, skipn_all, Nat.sub_diag. cbn [firstn skipn]. rewrite app_nil_r. change (@nil N ++ [0x90; 0]) with [0x90; 0]. 
    change (bytes_eqb [144; 0] [144; 0]) with true. cbv iota. reflexivity.
  Qed.
  Lemma hears_failed : forall s, hears p s (packet_of [] SW_SCHNORR_SIGNING_FAILED) = WA_FAILED [0xE0; 0x17].
  Proof. intros s. reflexivity. Qed.
  Lemma wallet_tx_commands : wallet_commands w (map frames_of (w_inputs w)) = tx_commands E key w.
  Proof.
    unfold wallet_commands, tx_commands. do 2 f_equal. f_equal. f_equal. rewrite <- (map_id (w_inputs w)) at 1. 
    assert (G : forall l, map (fun y : w_box * bytes * list bytes => sent_input (fst y) (snd y)) (combine l (map frames_of l)) = map (input_commands E key) l).
    { induction l as [|x l IH]; [reflexivity|]. cbn [map combine fst snd]. f_equal; [|exact IH]. unfold sent_input, input_commands. f_equal. unfold frames_of.
      generalize (frame_numbers (fst x)) as ns. induction ns as [|i ns IHn]; [reflexivity|]. cbn [map combine fst snd]. f_equal. exact IHn. }
    rewrite map_id. apply G.
  Qed.

  (** ** Sending *)
  Hypothesis Henv : env_ok E.
  Hypothesis Fit : tx_fits E w.
  Lemma input_in : forall dn x todo, w_inputs w = dn ++ x :: todo -> input_fits x.
  Proof.
    intros dn x todo K. destruct Fit as (_ & _ & _ & _ & Fi & _). rewrite K in Fi. apply Forall_app in Fi as [_ Fi]. exact (Forall_inv Fi).
  Qed.
  Lemma box_subs : forall b, box_fits b -> Forall (fun c => fst c <> 1 /\ fst c <> 5) (box_commands b) /\ box_commands b <> [].
  Proof.
    intros b (_ & _ & _ & _ & F5 & _ & F7 & _ & _ & F10 & _).
    assert (P : forall sub n l, sub <> 1 -> sub <> 5 -> Forall (fun c : command => fst c = sub /\ bytes_ok (snd c) = true /\ (length (snd c) <= n)%nat) l -> Forall (fun c => fst c <> 1 /\ fst c <> 5) l).
    { intros sub n l A B. apply Forall_impl. intros c (-> & _). auto. }
    split.
    - unfold box_commands. apply Forall_app. split; [|apply Forall_app; split].
      + apply (P 2 255%nat); [discriminate|discriminate|]. apply script_packets_ok. exact F5.
      + apply (P 3 240%nat); [discriminate|discriminate|]. apply packets_ok; [lia|]. apply bytes_ok_concat. revert F7. apply Forall_impl. intros t ((_ & A) & _). rewrite bytes_ok_app, A, be_bytes_ok. reflexivity.
      + apply (P 4 255%nat); [discriminate|discriminate|]. apply packets_ok; [lia|exact F10].
    - unfold box_commands. intro K. apply app_eq_nil in K as [K _]. unfold script_packets in K. destruct (wb_tree b) as [|y l]; [discriminate K|]. rewrite packets_cons in K; [discriminate K|lia|discriminate].
  Qed.
  Lemma tx_subs : Forall (fun c => fst c <> 1 /\ fst c <> 0x20) (tx_commands E key w).
  Proof.
    pose proof (commands_ok E key w 1 (mk_rnd [] []) Henv Fit) as K. assert (R : rnd_ok (mk_rnd [] [])) by (split; constructor). specialize (K R ltac:(lia)).
    revert K. apply Forall_impl. intros c (_ & A & B). auto.
  Qed.
  Lemma tx_sayable : Forall sayable (tx_commands E key w).
  Proof.
    pose proof (commands_ok E key w 1 (mk_rnd [] []) Henv Fit) as K. assert (R : rnd_ok (mk_rnd [] [])) by (split; constructor). specialize (K R ltac:(lia)).
    revert K. apply Forall_impl. intros c ((_ & _ & A & _ & B & C & _) & _). repeat split; assumption.
  Qed.
  Lemma box_sayable : forall b, box_fits b -> Forall sayable (box_commands b ++ map ask_frame (frame_numbers b)).
  Proof.
    intros b F. assert (Ft : blen (wb_tokens b) <= 20) by (destruct F as (_ & _ & _ & _ & _ & _ & _ & F & _); exact F).
    assert (P : forall sub n l, sub < 256 -> (n <= 255)%nat -> Forall (fun c : command => fst c = sub /\ bytes_ok (snd c) = true /\ (length (snd c) <= n)%nat) l -> Forall sayable l).
    { intros sub n l A B. apply Forall_impl. intros c (C0 & C & D). split; [rewrite C0; exact A|]. split; [exact C|lia]. }
    destruct F as (_ & _ & _ & _ & F5 & _ & F7 & _ & _ & F10 & _). apply Forall_app. split.
    - unfold box_commands. apply Forall_app. split; [|apply Forall_app; split].
      + apply (P 2 255%nat); [reflexivity|lia|]. apply script_packets_ok. exact F5.
      + apply (P 3 240%nat); [reflexivity|lia|]. apply packets_ok; [lia|]. apply bytes_ok_concat. revert F7. apply Forall_impl. intros t ((_ & A) & _). rewrite bytes_ok_app, A, be_bytes_ok. reflexivity.
      + apply (P 4 255%nat); [reflexivity|lia|]. apply packets_ok; [lia|exact F10].
    - assert (W : frame_total (described b) <= 256).
      { unfold frame_total, described. cbn [sb_tokens]. pose proof (N.div_le_mono (blen (wb_tokens b) + 3) 23 4 ltac:(lia) ltac:(lia)). change (23 / 4) with 5 in *. lia. }
      pose proof (numbers_below (frame_total (described b))) as Nb. fold (frame_numbers b) in Nb. apply Forall_forall. intros c Hc. apply in_map_iff in Hc as (i & <- & Hi).
      rewrite Forall_forall in Nb. specialize (Nb _ Hi). split; [reflexivity|]. split; [apply bytes_ok_cons; split; [cbv beta in Nb; lia|reflexivity]|cbn; lia].
  Qed.
  Lemma frames_nonempty : forall b, frame_numbers b <> [].
  Proof.
    intros b K. unfold frame_numbers, numbers in K. apply map_eq_nil in K. assert (L : length (seq 0 (N.to_nat (frame_total (described b)))) = 0%nat) by (rewrite K; reflexivity).
    rewrite seq_length in L. unfold frame_total in L. lia.
  Qed.
  Lemma opened : forall ins h s qs ue sid, Forall unheard qs -> is_start ins s = true -> ue = UiApprove \/ ue = UiPathBoth ->
    open_session ins sid (h ++ s :: qs ++ [(ue, [OResp [sid] SW_OK])]) s (qs ++ [(ue, [OResp [sid] SW_OK])]) /\
    Forall (fun o => signature o = None /\ ~ malformed_start o) (qs ++ [(ue, [OResp [sid] SW_OK])]).
  Proof.
    intros ins h s qs ue sid F S Hu. split.
    - split; [|split].
      + change (s :: qs ++ [(ue, [OResp [sid] SW_OK])]) with ([s] ++ qs ++ [(ue, [OResp [sid] SW_OK])]). rewrite !app_assoc, session_snoc.
        rewrite (session_all qs ins (h ++ [s]) s []); [|exact F|rewrite session_snoc, S; reflexivity]. destruct Hu as [-> | ->]; reflexivity.
      + apply Forall_app. split; [revert F; apply Forall_impl; intros o; apply unheard_keeps|]. constructor; [|constructor]. destruct Hu as [-> | ->]; intros b t [K|[]]; congruence.
      + right. exists qs, ue, []. split; [reflexivity|]. split; [exact Hu|]. revert F. apply Forall_impl. intros o U. split; [apply unheard_cont; exact U|apply unheard_approval; exact U].
    - apply Forall_app. split; [revert F; apply Forall_impl; intros o U; split; [apply unheard_signature; exact U|apply user_malformed; exact (proj1 U)]|].
      constructor; [|constructor]. split; [reflexivity|]. apply user_malformed. destruct Hu as [-> | ->]; reflexivity.
  Qed.
  Lemma some_eq : forall A (a b : A), Some a = Some b -> b = a. Proof. congruence. Qed.
  Lemma cons_app3 : forall (h : list obs) a b, h ++ [a; b] = (h ++ [a]) ++ [b].
  Proof. intros. rewrite <- app_assoc. reflexivity. Qed.

  Definition question_put (R : rnd -> Prop) (s : wallet) (h : list obs) (e : event) (outs : list output) : Prop :=
    exists k f pages b sw st2, outs = [OShow k f pages] /\ asking_kind k /\ history E key (h ++ [(e, outs); (UiApprove, [OResp b sw])]) st2 /\
      (displayable E w -> forall x, ~ In (Fail x) pages) /\
      forall qs ue, Forall unheard qs -> ue = UiApprove \/ ue = UiPathBoth /\ k = U_STX_APPROVE -> holds R (hears p s (packet_of b sw)) (h ++ (e, outs) :: qs ++ [(ue, [OResp b sw])]).
  Lemma answers_well : forall R s h st r e, holds R s h -> history E key h st -> on_screen h = None -> next_event s r = Some e -> event_ok e -> lucky E p s r ->
    (s = WA_OPEN (map frames_of (w_inputs w)) [] -> R r) ->
    exists outs st', history E key (h ++ [(e, outs)]) st' /\
    ((exists b, outs = [OResp b SW_OK] /\ holds R (heard_ok s b) (h ++ [(e, outs)])) \/ question_put R s h e outs).
  Proof.
    intros R s h st r e Ho H Hs Ne Ev Lu HR.
    destruct s as [got [|x todo]|got todo sid frames [|c cmds]|sid [|c cmds]|sig|a]; cbn [next_event] in Ne; try discriminate Ne; apply some_eq in Ne; rewrite Ne in *; clear Ne e.
    - cbn [holds] in Ho. destruct Ho as (dn & D1 & D2). rewrite app_nil_r in D1. rewrite D2, <- D1 in HR. specialize (HR eq_refl).
      destruct (sign_opens E key h st _ _ r Henv H Hs Lu Ev) as (f & sid & st2 & H2 & _ & _ & [_ Ls]). cbv zeta in H2.
      pose proof H2 as H2'. rewrite cons_app3 in H2'. destruct (history_cut _ _ _ _ _ H2') as [st3 H3]. eexists; eexists; split; [exact H3|]; right.
      exists U_STX_APPROVE, f, [], [sid], SW_OK, st2. split; [reflexivity|]. split; [right; left; reflexivity|]. split; [exact H2|]. split; [intros _ y []|]. intros qs ue F Hu.
      rewrite hears_ok. cbn [heard_ok hd]. subst got. rewrite <- D1. fold w. rewrite wallet_tx_commands. destruct (tx_run E key w Fit Henv) as [Ch Af].
      cbn [holds]. split; [split; [exact Ls|apply Forall_app; split; [apply tx_sayable|constructor; [|constructor]; split; [reflexivity|split; [reflexivity|cbn; lia]]]]|]. exists (qs ++ [(ue, [OResp [sid] SW_OK])]), r, f, (tx_commands E key w). split; [exact HR|].
      split. { destruct (opened INS_SIGN h (first_sign r, [OShow U_STX_APPROVE f []]) qs ue sid) as [A B]; [exact F|reflexivity|destruct Hu as [?|[? _]]; auto|]. split; assumption. }
      split; [reflexivity|]. split; [apply tx_subs|].
      assert (D0 : strip (description (qs ++ [(ue, [OResp [sid] SW_OK])])) = s_empty).
      { rewrite description_snoc. change (description qs) with (description ([] ++ qs)). rewrite description_all by exact F. destruct Hu as [-> |[-> _]]; reflexivity. }
      rewrite D0. split; assumption.
    - cbn [holds] in Ho. destruct Ho as (dn & D1 & D2). destruct (input_in _ _ _ D1) as [Fb _].
      destruct (attest_opens E key h st (fst x) r Henv H Hs Fb Ev Lu) as (f & sid & st2 & H2 & _ & _ & [_ Ls] & Sb). cbv zeta in H2, Sb.
      pose proof H2 as H2'. rewrite cons_app3 in H2'. destruct (history_cut _ _ _ _ _ H2') as [st3 H3]. eexists; eexists; split; [exact H3|]; right.
      exists U_ATTEST, f, [], [sid], SW_OK, st2. split; [reflexivity|]. split; [left; reflexivity|]. split; [exact H2|]. split; [intros _ y []|]. intros qs ue F Hu.
      rewrite hears_ok. cbn [heard_ok hd]. destruct (box_subs (fst x) Fb) as [S1 S2].
      destruct (box_commands (fst x) ++ map ask_frame (frame_numbers (fst x))) as [|y ys] eqn:Ek; [apply app_eq_nil in Ek as [Ek _]; congruence|]. rewrite <- Ek. clear Ek.
      cbn [holds]. set (start := (Apdu CLA INS_ATTEST 1 1 (box_header (fst x)) r, [OShow U_ATTEST f []])) in *.
      split; [split; [exact Ls|apply box_sayable; exact Fb]|]. exists dn, x, todo, start, (qs ++ [(ue, [OResp [sid] SW_OK])]). split; [exact D1|]. split; [exact D2|]. split; [reflexivity|].
      split. { destruct (opened INS_ATTEST h start qs ue sid) as [A B]; [exact F|reflexivity|destruct Hu as [?|[? _]]; auto|]. split; [exact A|]. revert B. apply Forall_impl. intros o [_ B]. exact B. }
      left. split; [reflexivity|]. exists (box_commands (fst x)). split; [exact S2|]. split; [reflexivity|]. split; [exact S1|].
      assert (D0 : streamed_box start (qs ++ [(ue, [OResp [sid] SW_OK])]) = box_in (fst x) None [] []).
      { rewrite <- Sb. rewrite streamed_snoc. change qs with ([] ++ qs). rewrite streamed_all by exact F. destruct Hu as [-> |[-> _]]; reflexivity. }
      rewrite D0. destruct (box_chain (fst x) Fb) as [A B]. split; assumption.
    - cbn [holds] in Ho. destruct Ho as ([Ls Sy] & dn & x & rest & start & body & D1 & D2 & -> & At & [(-> & cs & Cn & Ec & Fc & Ch & Af)|(Sb & is & js & Jn & En & -> & Ec)]).
      + destruct cs as [|c0 cs]; [congruence|]. change ((c0 :: cs) ++ map ask_frame (frame_numbers (fst x))) with (c0 :: (cs ++ map ask_frame (frame_numbers (fst x)))) in Ec.
        injection Ec as -> ->. pose proof (Forall_inv Fc) as [N1 N5]. apply Forall_inv_tail in Fc. destruct Ch as [Ch1 Ch2].
        destruct (attest_next _ _ _ _ _ _ _ _ _ r Henv H At Hs Ev N1 Ch1) as (b & st1 & H1 & At1 & Hs1 & E1). cbv zeta in *.
        eexists; eexists; split; [exact H1|]; left; exists b. split; [reflexivity|]. cbn [heard_ok]. apply N.eqb_neq in N5. rewrite N5.
        assert (K : exists y ys, cs ++ map ask_frame (frame_numbers (fst x)) = y :: ys).
        { destruct (cs ++ map ask_frame (frame_numbers (fst x))) as [|y ys] eqn:Ek; [|eauto]. apply app_eq_nil in Ek as [_ Ek]. apply map_eq_nil in Ek. destruct (frames_nonempty _ Ek). }
        destruct K as (y & ys & K). rewrite K. cbn [holds]. rewrite <- K. split; [split; [exact Ls|exact (Forall_inv_tail Sy)]|]. exists dn, x, rest, start, (body ++ [(Apdu CLA INS_ATTEST (fst c0) sid (snd c0) r, [OResp b SW_OK])]).
        do 3 (split; [assumption || reflexivity|]). split; [exact At1|]. unfold after in Af. cbn [fold_left] in Af. rewrite <- E1 in Ch2, Af.
        destruct cs as [|c1 cs].
        * right. split; [exact Af|]. exists [], (frame_numbers (fst x)). split; [apply frames_nonempty|]. split; [reflexivity|]. split; reflexivity.
        * left. split; [reflexivity|]. exists (c1 :: cs). split; [discriminate|]. split; [reflexivity|]. split; [exact Fc|]. split; [exact Ch2|exact Af].
      + destruct js as [|j js]; [congruence|]. cbn [map] in Ec. injection Ec as -> ->. cbn [ask_frame fst snd] in *.
        assert (Nb : Forall (fun i => i < frame_total (described (fst x))) (frame_numbers (fst x))) by apply numbers_below. rewrite En in Nb. apply Forall_app in Nb as [_ Nb]. apply Forall_inv in Nb.
        assert (Ad : admissible_box (streamed_box start body) 5 [j]). { rewrite Sb. split; [apply box_complete|]. exists j. split; [reflexivity|exact Nb]. }
        destruct (attest_next _ _ _ _ _ _ _ _ _ r Henv H At Hs Ev ltac:(discriminate) Ad) as (b & st1 & H1 & At1 & Hs1 & E1). cbv zeta in *.
        eexists; eexists; split; [exact H1|]; left; exists b. split; [reflexivity|].
        pose proof (frame_answer _ _ _ _ _ _ _ _ Henv H1) as (start' & body' & i' & J1 & _ & _ & J2 & _ & _ & _ & J3).
        destruct At as ((A1 & _) & _). assert (start' = start /\ body' = body) as [-> ->] by (split; congruence). assert (i' = j) as -> by congruence. rewrite Sb in J3, E1.
        change (sb_cmd (described (fst x)) 5 [j]) with (described (fst x)) in E1. subst b.
        cbn [heard_ok]. change (fst (ask_frame j) =? 5) with true. cbv iota zeta. fold (frame_at x j). change (map (frame_at x) is ++ [frame_at x j]) with (map (frame_at x) is ++ map (frame_at x) [j]). rewrite <- map_app.
        destruct js as [|j' js]; cbn [map].
        * cbn [holds tl]. exists (dn ++ [x]). split; [rewrite <- app_assoc; exact D1|]. rewrite D2, (map_app frames_of). f_equal. change (map frames_of [x]) with [frames_of x]. f_equal. unfold frames_of. rewrite En. reflexivity.
        * cbn [holds]. split; [split; [exact Ls|exact (Forall_inv_tail Sy)]|]. exists dn, x, rest, start. eexists. do 3 (split; [assumption || reflexivity|]). split; [exact At1|]. right. split; [exact E1|]. exists (is ++ [j]), (j' :: js). split; [discriminate|].
          split; [rewrite <- app_assoc; exact En|]. split; reflexivity.
    - cbn [holds] in Ho. destruct Ho as ([Ls Sy] & body & r0 & f & cs & Rr & Sg & Ec & Fc & Ch & Af). destruct cs as [|c0 cs].
      + change ([] ++ [(0x20, [])]) with [(0x20, @nil N)] in Ec. injection Ec as -> ->. cbn [fst snd] in *. unfold after in Af. cbn [fold_left] in Af.
        assert (Hd : sx_head (description body) = sx_head (wanted E w)) by (rewrite <- Af; reflexivity).
        assert (Hw : map strip_o (sx_outputs (description body)) = sx_outputs (wanted E w)) by (rewrite <- Af; reflexivity).
        assert (Od : count_complete output_complete (sx_outputs (description body)) = blen (w_outputs w)) by (rewrite <- strip_count, Hw; apply wanted_done).
        assert (Bl : blen (sx_outputs (description body)) = blen (w_outputs w)).
        { apply (f_equal (@length _)) in Hw. cbn [wanted sx_outputs] in Hw. rewrite !map_length in Hw. unfold blen. rewrite Hw. reflexivity. }
        destruct (sign_finish E key _ _ _ _ _ r _ Henv H Sg Hs Ev Hd Od Bl) as (f' & pages & o & st3 & H3 & An). cbv zeta in *.
        assert (Bs : bytes_to_sign E (description body) = bytes_to_sign E (wanted E w)) by (rewrite <- Af; symmetry; apply strip_bytes). rewrite Bs in An.
        pose proof H3 as H3'. rewrite app_assoc in H3'. destruct (history_cut _ _ _ _ _ H3') as [st4 H4]. eexists; eexists; split; [exact H4|]; right.
        assert (Cl : displayable E w -> forall x, ~ In (Fail x) pages).
        { intros Dp y. destruct Sg as ((Se & _) & _). eapply (confirm_clean E key w _ _ _ f' pages _ _ y Henv Dp H4); [rewrite on_screen_snoc; reflexivity|rewrite session_snoc, Se; reflexivity|]. rewrite description_snoc. exact Af. }
        destruct An as [(sig & -> & An)|(-> & An)].
        * exists U_STX_TX, f', pages, sig, SW_OK, st3. split; [reflexivity|]. split; [right; right; right; reflexivity|]. split; [exact H3|]. split; [exact Cl|]. intros qs ue _ _.
          rewrite hears_ok. cbn [heard_ok holds]. exists r0, [OShow U_STX_APPROVE f []]. split; assumption.
        * exists U_STX_TX, f', pages, [], SW_SCHNORR_SIGNING_FAILED, st3. split; [reflexivity|]. split; [right; right; right; reflexivity|]. split; [exact H3|]. split; [exact Cl|]. intros qs ue _ _.
          rewrite hears_failed. cbn [holds]. split; [reflexivity|]. exists r0, [OShow U_STX_APPROVE f []]. split; assumption.
      + change ((c0 :: cs) ++ [(0x20, [])]) with (c0 :: (cs ++ [(0x20, [])])) in Ec. injection Ec as -> ->. pose proof (Forall_inv Fc) as [N1 N2]. apply Forall_inv_tail in Fc. destruct Ch as [Ch1 Ch2].
        destruct (sign_next _ _ _ _ _ _ _ _ _ r Henv H Sg Hs Ev N1 N2 Ch1) as (tr1 & st1 & H1 & Sg1 & Hs1 & E1 & _ & _ & _ & [(b & ->)|(f' & pages & ->)]).
        * eexists; eexists; split; [exact H1|]; left; exists b. split; [reflexivity|]. cbn [heard_ok]. 
          destruct (cs ++ [(0x20, [])]) as [|y ys] eqn:Ek; [apply app_eq_nil in Ek as [_ Ek]; discriminate Ek|]. cbn [holds]. unfold after in Af. cbn [fold_left] in Af. rewrite <- E1 in Ch2, Af.
          split; [split; [exact Ls|exact (Forall_inv_tail Sy)]|]. eexists. exists r0, f, cs. split; [exact Rr|]. split; [exact Sg1|]. split; [symmetry; exact Ek|]. split; [exact Fc|]. split; [exact Ch2|exact Af].
        * pose proof H1 as H1'. rewrite cons_app3 in H1'. destruct (history_cut _ _ _ _ _ H1') as [st3 H3]. eexists; eexists; split; [exact H3|]; right.
          exists U_STX_OUTPUT, f', pages, [], SW_OK, st1. split; [reflexivity|]. split; [right; right; left; reflexivity|]. split; [exact H1|].
          split. { intros Dp y. destruct Sg as ((Se & _) & _). pose proof N1 as N1'. apply N.eqb_neq in N1'. set (q := (Apdu CLA INS_SIGN (fst c0) sid (snd c0) r, [OShow U_STX_OUTPUT f' pages])) in *.
            assert (Ds : strip (description (body ++ [q])) = describe_cmd (strip (description body)) (fst c0) (snd c0)).
            { assert (Cq : continuation INS_SIGN q = Some (fst c0, snd c0)) by (unfold continuation, q; rewrite N1'; reflexivity).
              rewrite description_snoc. unfold describe. rewrite Cq. change (shows_output (snd q)) with true. cbv iota. rewrite strip_same by reflexivity. apply strip_cmd. }
            eapply (output_clean E key w _ _ _ f' pages _ (body ++ [q]) cs y Henv Dp H3); [rewrite on_screen_snoc; reflexivity| | |].
            - rewrite session_snoc, Se. unfold is_start, q. rewrite N1'. reflexivity.
            - rewrite Ds. exact Ch2.
            - rewrite Ds. exact Af. }
          intros qs ue F [-> |[_ K]]; [|discriminate K].
          rewrite hears_ok. cbn [heard_ok]. destruct (cs ++ [(0x20, [])]) as [|y ys] eqn:Ek; [apply app_eq_nil in Ek as [_ Ek]; discriminate Ek|]. cbn [holds]. unfold after in Af. cbn [fold_left] in Af. rewrite <- E1 in Ch2, Af.
          set (q := (Apdu CLA INS_SIGN (fst c0) sid (snd c0) r, [OShow U_STX_OUTPUT f' pages])) in *. set (a := (UiApprove, [OResp [] SW_OK])) in *.
          assert (D0 : strip (description (body ++ [q] ++ qs ++ [a])) = strip (description (body ++ [q; a]))).
          { rewrite cons_app3. rewrite !app_assoc, !description_snoc. rewrite description_all by exact F. rewrite description_snoc. reflexivity. }
          split; [split; [exact Ls|exact (Forall_inv_tail Sy)]|]. exists (body ++ [q] ++ qs ++ [a]), r0, f, cs. split; [exact Rr|].
          split. { change (q :: qs ++ [a]) with ([q] ++ qs ++ [a]). rewrite !app_assoc. apply signing_snoc; [|reflexivity|intros b t [K|[]]; congruence|reflexivity|apply user_malformed; reflexivity].
            apply signing_all; [exact F|]. apply signing_snoc; [exact Sg| | |reflexivity|intros (cla & p2 & dd & rr & K0 & _); discriminate K0].
            - unfold is_start, q. apply N.eqb_neq in N1. rewrite N1. reflexivity.
            - left. split; [|reflexivity]. unfold continuation, q. apply N.eqb_neq in N1. rewrite N1. reflexivity. }
          split; [symmetry; exact Ek|]. split; [exact Fc|]. rewrite D0. split; [exact Ch2|exact Af].
  Qed.
  Lemma answer_at_once : forall R s h st r e outs st', holds R s h -> history E key h st -> on_screen h = None -> next_event s r = Some e -> event_ok e -> lucky E p s r ->
    (s = WA_OPEN (map frames_of (w_inputs w)) [] -> R r) ->
    history E key (h ++ [(e, outs)]) st' ->
    (exists b, outs = [OResp b SW_OK] /\ holds R (heard_ok s b) (h ++ [(e, outs)])) \/ question_put R s h e outs.
  Proof.
    intros R s h st r e outs st' Ho H Hs Ne Ev Lu HR H'. destruct (answers_well R s h st r e Ho H Hs Ne Ev Lu HR) as (o & st1 & H1 & K). pose proof (same_out _ _ _ _ _ _ _ _ H' H1) as ->. exact K.
  Qed.
End Plan.
