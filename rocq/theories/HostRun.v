(** The device goes through the commands of a transaction within its limits, if the user
    approves, and signs it. *)
From Verif Require Import Lib Gve CodecProofs Env SpecVlq Bip32 ErgoTree Address Schnorr TxTable TxBox InputFrame UiFlow P2pkOp App SpecText SpecTree SpecTrace SpecTx SpecAmounts SpecApdu
  SpecScreen SpecRequest SpecDispatch SpecSign SpecRules SpecAccept SpecAttest SpecStart SpecHost Moves BoxProofs SignInv SignInput SignOutput SignRest TraceSign TraceAttest
  TraceScreen TraceShow TraceUb FlowProofs DispatchProofs RequestProofs SessionProofs AttestProofs AcceptInput AcceptFrame AcceptOutput AcceptProofs AttestAccept StartAccept OpenAccept
  AmountProofs FrameRules TreeProofs SignedProofs HostAttest HostSign SpecHost.

#[local] Arguments N.eqb : simpl never.
#[local] Arguments N.ltb : simpl never.
#[local] Arguments N.leb : simpl never.
#[local] Arguments N.sub : simpl never.
#[local] Arguments blen : simpl never.
#[local] Arguments num : simpl never.
#[local] Arguments slice : simpl never.

(** ** What was shown does not matter *)

Definition strip_o (o : s_output) : s_output :=
  mk_so (so_value o) (so_tree_len o) (so_height o) (so_ntokens o) (so_regs_len o) (so_dest o) (so_tokens o) (so_regs o) false false.
Definition strip (d : s_tx) : s_tx := on_outputs (map strip_o) d.

Lemma map_upd_last : forall A B (g : A -> B) f f' l, (forall x, g (f x) = f' (g x)) -> map g (upd_last f l) = upd_last f' (map g l).
Proof.
  intros A B g f f' l H. induction l as [|x l IH]; [reflexivity|]. destruct l as [|y l]; [cbn; rewrite H; reflexivity|].
  change (upd_last f (x :: y :: l)) with (x :: upd_last f (y :: l)). cbn [map] in *. rewrite IH. reflexivity.
Qed.
Lemma upd_last_id : forall A (l : list A), upd_last (fun x => x) l = l.
Proof. intros A l. induction l as [|x l IH]; [reflexivity|]. destruct l as [|y l]; [reflexivity|]. change (x :: upd_last (fun x => x) (y :: l) = x :: y :: l). rewrite IH. reflexivity. Qed.
Lemma strip_outputs : forall f f' d, (forall x, strip_o (f x) = f' (strip_o x)) ->
  strip (on_outputs (upd_last f) d) = on_outputs (upd_last f') (strip d).
Proof. intros f f' d H. unfold strip, on_outputs. cbn [sx_head sx_tokens sx_inputs sx_data sx_outputs]. rewrite (map_upd_last _ _ strip_o f f') by exact H. reflexivity. Qed.
Lemma strip_same : forall f d, (forall x, strip_o (f x) = strip_o x) -> strip (on_outputs (upd_last f) d) = strip d.
Proof. intros f d H. rewrite (strip_outputs f (fun x => x)) by exact H. unfold on_outputs. rewrite upd_last_id. destruct d. reflexivity. Qed.
Lemma strip_cmd : forall d sub data, strip (describe_cmd d sub data) = describe_cmd (strip d) sub data.
Proof.
  intros d sub data. unfold describe_cmd.
  repeat match goal with |- context [match ?n with _ => _ end] => lazymatch n with sub => destruct n | _ => match type of n with positive => destruct n end end end; try reflexivity;
  try (apply strip_outputs; reflexivity).
  all: try (destruct (num 33 1 data =? 0); reflexivity).
  unfold strip, on_outputs. cbn [sx_head sx_tokens sx_inputs sx_data sx_outputs]. rewrite map_app. reflexivity.
Qed.
Lemma strip_filter : forall f l, (forall o, f (strip_o o) = f o) -> filter f (map strip_o l) = map strip_o (filter f l).
Proof. intros f l H. induction l as [|o l IH]; [reflexivity|]. cbn [map filter]. rewrite H. destruct (f o); cbn [map]; congruence. Qed.
Lemma strip_count : forall l, count_complete output_complete (map strip_o l) = count_complete output_complete l.
Proof. intro l. unfold count_complete. rewrite strip_filter by reflexivity. unfold blen. rewrite map_length. reflexivity. Qed.
Lemma strip_fees : forall d, fees (strip d) = fees d.
Proof. intro d. unfold fees. cbn [strip on_outputs sx_outputs]. rewrite strip_filter, map_map by reflexivity. reflexivity. Qed.
Lemma strip_change : forall d, change (strip d) = change d.
Proof. intro d. unfold change. cbn [strip on_outputs sx_outputs]. rewrite strip_filter, map_map by reflexivity. reflexivity. Qed.
Lemma strip_tokens : forall d, output_tokens (strip d) = output_tokens d.
Proof. intro d. unfold output_tokens. cbn [strip on_outputs sx_outputs]. rewrite map_map. reflexivity. Qed.
Lemma strip_range : forall d, in_range (strip d) -> in_range d.
Proof.
  intros d (A & B & C). rewrite strip_fees, strip_change in B. do 2 (split; [assumption|]). intro id. specialize (C id). unfold balance in *. rewrite strip_tokens in C. exact C.
Qed.
Lemma strip_current : forall d o, current_output (strip d) o -> exists o0, current_output d o0 /\ o = strip_o o0.
Proof.
  intros d o (pre & K). cbn [strip on_outputs sx_outputs] in K. destruct (snoc_cases _ (sx_outputs d)) as [En|(l & x & En)]; rewrite En in K.
  - destruct pre; discriminate K.
  - rewrite map_app in K. apply app_inj_tail in K as [_ <-]. exists x. split; [exists l; exact En|reflexivity].
Qed.
Lemma strip_bytes : forall E d, bytes_to_sign E (strip d) = bytes_to_sign E d.
Proof.
  intros E d. unfold bytes_to_sign, strip, on_outputs. cbn [sx_head sx_tokens sx_inputs sx_data sx_outputs]. rewrite map_map. unfold blen. rewrite map_length. reflexivity.
Qed.
Lemma strip_admissible : forall E key d sub data, admissible E key (strip d) sub data -> admissible E key d sub data.
Proof.
  intros E key d sub data [[-> K]|(h & Hh & K)]; [left; split; [reflexivity|exact K]|]. right. exists h. split; [exact Hh|].
  rewrite <- strip_cmd in K. set (d' := describe_cmd d sub data) in *. clearbody d'.
  repeat match goal with |- context [match ?n with _ => _ end] => lazymatch n with sub => destruct n | _ => match type of n with positive => destruct n end end end; try exact K; try contradiction.
  - destruct K as (K1 & (o & C & K2) & K3). apply strip_current in C as (o0 & C & ->). rewrite strip_fees, strip_change in K3.
    split; [exact K1|]. split; [exists o0; split; [exact C|exact K2]|exact K3].
  - destruct K as (K1 & K2 & K3 & K4). do 2 (split; [assumption|]). split; [|exact K4]. intro O. apply K3. unfold outputs_done in *. cbn [strip on_outputs sx_outputs]. rewrite strip_count. exact O.
  - destruct K as ((o & C & K1) & K2 & K3 & (o' & C' & K4) & K5). apply strip_current in C as (o0 & C & ->), C' as (o1 & C' & ->).
    split; [exists o0; split; [exact C|exact K1]|]. do 2 (split; [assumption|]). split; [exists o1; split; [exact C'|exact K4]|]. apply strip_range, K5.
  - destruct K as (o & C & K). apply strip_current in C as (o0 & C & ->). exists o0. split; [exact C|exact K].
  - destruct K as (o & C & K). apply strip_current in C as (o0 & C & ->). exists o0. split; [exact C|exact K].
  - destruct K as (K1 & K2 & K3 & K4 & K5 & K6 & K7). do 5 (split; [assumption|]). split; [apply strip_range, K6|exact K7].
  - destruct K as ((o & C & K2) & K3 & K4). apply strip_current in C as (o0 & C & ->). rewrite strip_fees, strip_change in K3.
    split; [exists o0; split; [exact C|exact K2]|]. split; [exact K3|exact K4].
  - unfold outputs_done in *. cbn [strip on_outputs sx_outputs] in K. rewrite strip_count in K. exact K.
Qed.

(** ** One command *)

Lemma signing_snoc : forall sid tr start body o, signing sid tr start body -> is_start INS_SIGN o = false -> keeps INS_SIGN sid o ->
  signature o = None -> ~ malformed_start o -> signing sid (tr ++ [o]) start (body ++ [o]).
Proof.
  intros sid tr start body o ((O1 & O2 & O3) & M) S K G Ma. split; [split; [|split]|].
  - rewrite session_snoc, S, O1. reflexivity.
  - apply Forall_app. split; [exact O2|]. constructor; [exact K|constructor].
  - destruct O3 as [O3|(b1 & e & b2 & -> & O3)]; [left; exact O3|right]. exists b1, e, (b2 ++ [o]). rewrite <- app_assoc. split; [reflexivity|exact O3].
  - apply Forall_app. split; [exact M|]. constructor; [split; assumption|constructor].
Qed.
Lemma output_screen_tx : forall op f d op', p2pk_show_output_confirm_screen op = Ok (f, d, op') ->
  exists t o, op_union_of op' = OU_TX t /\ tx_output t = Some o.
Proof.
  intros op f d op' H. unfold p2pk_show_output_confirm_screen in H. destruct (op_state_of op); try discriminate H;
  (destruct (op_union_of op) as [|t|]; try discriminate H; destruct (tx_output t) as [o|]; [|discriminate H];
   destruct (add_output_screens [] o) as [fd|]; [cbn [bind] in H|discriminate H]; destruct (display (fst fd)) as [f'|]; [cbn [bind] in H|discriminate H];
   injection H as <- <- <-; exists (mk_tx (tx_full t) (Some o) []), o; split; reflexivity).
Qed.
(** What a user-approved session does with a command that is admissible. *)
Lemma sign_next : forall E key tr st sid start body sub data r, env_ok E -> history E key tr st -> signing sid tr start body -> on_screen tr = None ->
  event_ok (Apdu CLA INS_SIGN sub sid data r) -> sub <> 1 -> sub <> 0x20 -> admissible E key (strip (description body)) sub data ->
  exists tr' st', history E key (tr ++ tr') st' /\ signing sid (tr ++ tr') start (body ++ tr') /\ on_screen (tr ++ tr') = None /\
    strip (description (body ++ tr')) = describe_cmd (strip (description body)) sub data /\
    requests tr' = [Apdu CLA INS_SIGN sub sid data r] /\ user_approves tr' /\ all_accepted tr' /\
    ((exists b, tr' = [(Apdu CLA INS_SIGN sub sid data r, [OResp b SW_OK])]) \/
     exists f pages, tr' = [(Apdu CLA INS_SIGN sub sid data r, [OShow U_STX_OUTPUT f pages]); (UiApprove, [OResp [] SW_OK])]).
Proof.
  intros E key tr st sid start body sub data r Henv H Sg Hs Hev N1 N2 Ad. apply strip_admissible in Ad.
  assert (A : accepted (snd (step E st (Apdu CLA INS_SIGN sub sid data r))) = true) by (apply (accepts E key tr st sid start body sub data r); assumption).
  destruct (step E st (Apdu CLA INS_SIGN sub sid data r)) as [st1 outs] eqn:Es. cbn [snd] in A.
  pose proof (history_shape _ _ _ _ H) as Sh. pose proof (step_move _ _ _ _ _ Sh Es) as M.
  assert (S : is_start INS_SIGN (Apdu CLA INS_SIGN sub sid data r, outs) = false).
  { unfold is_start. apply N.eqb_neq in N1. rewrite N1. reflexivity. }
  assert (C : continuation INS_SIGN (Apdu CLA INS_SIGN sub sid data r, outs) = Some (sub, data)).
  { unfold continuation. pose proof N1 as N1'. apply N.eqb_neq in N1'. rewrite N1', A. reflexivity. }
  assert (K : keeps INS_SIGN sid (Apdu CLA INS_SIGN sub sid data r, outs)) by (left; auto).
  assert (Ma : ~ malformed_start (Apdu CLA INS_SIGN sub sid data r, outs)) by (intros (cla & p2 & d & rr & Q & _); discriminate Q).
  inversion M; subst; try discriminate; try congruence; try solve [other].
  - exfalso. match goal with K0 : refused _ _ _ |- _ => rename K0 into R end.
    unfold refused in R. decompose [and or] R; subst; discriminate A.
  - exfalso. match goal with K0 : handler_error s = true \/ _ |- _ => rename K0 into R end. destruct R as [R|(-> & _)]; [|discriminate A].
    pose proof (err_not_accepted st s R) as R'. unfold handler_err in R'. cbn [snd] in R'. congruence.
  - eexists. exists (set_ctx st (sg_put g op)). split; [econstructor; [exact H|exact Hev|exact Es|intros [Q|[]]; discriminate Q]|].
    split; [apply signing_snoc; try assumption; reflexivity|]. split; [rewrite on_screen_snoc; exact Hs|].
    split; [rewrite description_snoc; unfold describe; rewrite C; apply strip_cmd|]. split; [reflexivity|]. split; [constructor; [|constructor]; intro Q; discriminate Q|]. split; [constructor; [reflexivity|constructor]|]. left. eexists. reflexivity.
  - match goal with K0 : p2pk_show_output_confirm_screen _ = _ |- _ => destruct (output_screen_tx _ _ _ _ K0) as (t & o & U1 & U2) end.
    match goal with K0 : step E st _ = (?x, [?y]) |- _ => set (st1 := x) in *; set (sh := y) in * end.
    destruct (step E st1 UiApprove) as [st2 o2] eqn:E2.
    assert (O2 : o2 = [OResp [] SW_OK]).
    { cbn [step ui_action st1 show sg_put st_ui st_ctx set_ctx set_busy] in E2. unfold ui_action, st1, show in E2. cbn in E2. unfold ui_action_stx_output in E2. cbn [sg_op] in E2. rewrite U1, U2 in E2. injection E2 as _ <-. reflexivity. } subst o2.
    exists [(Apdu CLA INS_SIGN sub (sg_session g) data r, [sh]); (UiApprove, [OResp [] SW_OK])], st2.
    assert (Q : forall l : list obs, l ++ [(Apdu CLA INS_SIGN sub (sg_session g) data r, [sh]); (UiApprove, [OResp [] SW_OK])] =
      (l ++ [(Apdu CLA INS_SIGN sub (sg_session g) data r, [sh])]) ++ [(UiApprove, [OResp [] SW_OK])]) by (intro l; rewrite <- app_assoc; reflexivity).
    rewrite !Q. split. { econstructor; [econstructor; [exact H|exact Hev|exact Es|]|exact I|exact E2|]; intros [K0|[]]; discriminate K0. }
    split. { apply signing_snoc; [apply signing_snoc; try assumption; reflexivity|reflexivity| |reflexivity|].
      - intros b0 s0 [K0|[]]. congruence.
      - intros (cla & p2 & dd & rr & K0 & _). discriminate K0. }
    split; [rewrite !on_screen_snoc; reflexivity|].
    split. { rewrite !description_snoc. unfold describe at 1. cbn [continuation is_approval accepted existsb success orb]. rewrite strip_same by reflexivity.
      unfold describe. rewrite C. cbn [snd shows_output existsb orb sh]. rewrite strip_same by reflexivity. apply strip_cmd. }
    split; [reflexivity|]. split; [constructor; [|constructor; [|constructor]]; [intro K0; discriminate K0|intros _; reflexivity]|].
    split; [constructor; [reflexivity|constructor; [reflexivity|constructor]]|]. right. unfold sh. eauto.
Qed.
Lemma requests_app : forall a b, requests (a ++ b) = requests a ++ requests b.
Proof. intros. unfold requests. rewrite map_app, filter_app. reflexivity. Qed.
Lemma sign_run : forall E key sid start r l tr st body, env_ok E -> history E key tr st -> signing sid tr start body -> on_screen tr = None ->
  Forall (fun c => event_ok (Apdu CLA INS_SIGN (fst c) sid (snd c) r) /\ fst c <> 1 /\ fst c <> 0x20) l ->
  chain describe_cmd (admissible E key) (strip (description body)) l ->
  exists tr' st', history E key (tr ++ tr') st' /\ signing sid (tr ++ tr') start (body ++ tr') /\ on_screen (tr ++ tr') = None /\
    strip (description (body ++ tr')) = after describe_cmd (strip (description body)) l /\
    requests tr' = map (fun c => Apdu CLA INS_SIGN (fst c) sid (snd c) r) l /\ user_approves tr' /\ all_accepted tr'.
Proof.
  intros E key sid start r l. induction l as [|[sub data] l IH]; intros tr st body Henv H Sg Hs F C.
  - exists [], st. rewrite !app_nil_r. do 5 (split; [assumption || reflexivity|]). split; constructor.
  - destruct C as [C1 C2]. pose proof (Forall_inv F) as (Ev & N1 & N2). apply Forall_inv_tail in F. cbn [fst snd] in *.
    destruct (sign_next _ _ _ _ _ _ _ _ _ r Henv H Sg Hs Ev N1 N2 C1) as (tr1 & st1 & H1 & Sg1 & Hs1 & E1 & Q1 & U1 & A1 & _).
    rewrite <- E1 in C2. destruct (IH _ _ _ Henv H1 Sg1 Hs1 F C2) as (tr' & st' & R1 & R2 & R3 & R4 & R5 & R6 & R7).
    exists (tr1 ++ tr'), st'. rewrite <- !app_assoc in *. do 3 (split; [assumption|]). split; [rewrite E1 in R4; exact R4|].
    split; [rewrite requests_app, Q1, R5; reflexivity|]. split; apply Forall_app; split; assumption.
Qed.

(** ** The start *)

Lemma token_screen : forall op token known f op', p2pk_show_token_and_path op token known = Ok (f, op') -> op_union_of op' = OU_APPROVE token.
Proof.
  intros op token known f op' H. unfold p2pk_show_token_and_path in H. destruct (ui_bip32_path_screen _ _ _ _) as [s|]; [|discriminate H].
  destruct (add_operation_approve_screens (add s []) token known) as [f1|]; [cbn [bind] in H|discriminate H]. destruct (display f1) as [f2|]; [cbn [bind] in H|discriminate H].
  injection H as _ <-. reflexivity.
Qed.
Lemma sign_opens : forall E key tr st p2 data r, env_ok E -> history E key tr st -> on_screen tr = None -> sign_request_ok E p2 data r ->
  event_ok (Apdu CLA INS_SIGN 1 p2 data r) ->
  exists f sid st', let s := (Apdu CLA INS_SIGN 1 p2 data r, [OShow U_STX_APPROVE f []]) in let a := (UiApprove, [OResp [sid] SW_OK]) in
    history E key (tr ++ [s; a]) st' /\ signing sid (tr ++ [s; a]) s [a] /\ on_screen (tr ++ [s; a]) = None /\ 0 < sid < 256.
Proof.
  intros E key tr st p2 data r Henv H Hs F Ev.
  assert (A : accepted (snd (step E st (Apdu CLA INS_SIGN 1 p2 data r))) = true) by (apply (accepts_sign E key tr st p2 data r Henv H Ev); split; assumption).
  destruct (step E st (Apdu CLA INS_SIGN 1 p2 data r)) as [st1 outs] eqn:Es. cbn [snd] in A.
  pose proof (history_shape _ _ _ _ H) as Sh. pose proof (step_move _ _ _ _ _ Sh Es) as M.
  inversion M; subst; try discriminate; try congruence; try solve [other].
  - exfalso. match goal with K0 : refused _ _ _ |- _ => rename K0 into R end.
    unfold refused in R. decompose [and or] R; subst; discriminate A.
  - exfalso. match goal with K0 : handler_error s = true \/ _ |- _ => rename K0 into R end. destruct R as [R|(-> & _)]; [|discriminate A].
    pose proof (err_not_accepted st s R) as R'. unfold handler_err in R'. cbn [snd] in R'. congruence.
  - match goal with K : session_id_new_random _ _ = Some _ |- _ => destruct (random_id _ _ _ K) as (N0 & _ & I0) end.
    match goal with K : p2pk_show_token_and_path _ _ _ = _ |- _ => pose proof (token_screen _ _ _ _ _ K) as U end.
    assert (R : 0 < session < 256). { destruct Ev as (_ & _ & _ & _ & _ & _ & _ & Ev). rewrite Forall_forall in Ev. apply Ev in I0. lia. }
    exists f, session. 
    set (s := (Apdu CLA INS_SIGN 1 p2 data r, [OShow U_STX_APPROVE f []])) in *.
    set (ap := (UiApprove, [OResp [session] SW_OK])).
    match goal with K : step E st _ = (?x, _) |- _ => set (st1 := x) in * end.
    destruct (step E st1 UiApprove) as [st2 o2] eqn:E2.
    assert (O2 : o2 = [OResp [session] SW_OK]). { cbn in E2. unfold ui_action_stx_approve in E2. cbn [sg_op sg_session] in E2. rewrite U in E2. injection E2 as _ <-. reflexivity. } subst o2.
    exists st2. cbv zeta.
    assert (Q : tr ++ [s; ap] = (tr ++ [s]) ++ [ap]) by (rewrite <- app_assoc; reflexivity). rewrite Q.
    split. { econstructor; [econstructor; [exact H|exact Ev|exact Es|]|exact I|exact E2|]; intros [K|[]]; discriminate K. }
    split; [split; [split; [|split]|]|split; [|exact R]].
    + rewrite !session_snoc. reflexivity.
    + constructor; [|constructor]. intros b0 s0 [K|[]]. congruence.
    + right. exists [], UiApprove, []. split; [reflexivity|]. split; [left; reflexivity|constructor].
    + constructor; [|constructor]. split; [reflexivity|]. intros (cla & pp & d & rr & K & _). discriminate K.
    + rewrite !on_screen_snoc. reflexivity.
Qed.

(** ** The end *)

Lemma unsigned_zero : forall E start body sid s h sk ch, env_ok E -> final_state E start body sid s h ->
  e_derive E (ss_path s) = Some (sk, ch) ->
  schnorr_sign_finish E (ss_prefix s ++ tx_bytes E (description body) h) sk (ss_key s) = None ->
  zero_challenge E start (streamed_bytes E (description body)).
Proof.
  intros E start body sid s h sk ch Henv F D S. pose proof (finished_counts _ _ _ (fs_wf _ _ _ _ _ _ F) (fs_phase _ _ _ _ _ _ F)) as T.
  rewrite (ft_bytes _ _ _ T) in S. destruct (fs_started _ _ _ _ _ _ F) as (p2 & data & r & f & sk' & ch' & pk & w & -> & _ & _ & A & B & C & C1 & C2 & C3 & C4 & C5 & C6 & C7 & C8 & C9 & _).
  assert (sk' = sk) by congruence. subst sk'. exists sk, (ss_key s), pk, w.
  split; [exists ch; unfold start_data; cbn [fst]; rewrite <- A; exact D|]. split; [exact C6|]. split; [exact C4|]. split; [exact C5|].
  rewrite C9 in S. rewrite !compress_spec in S by (eapply ok_mulG_len; eauto). unfold schnorr_sign_finish in S.
  replace ((SCHNORR_PREFIX ++ compressed pk ++ SCHNORR_SUFFIX ++ compressed w) ++ streamed_bytes E (description body))
    with (commitment (compressed pk) (compressed w) ++ streamed_bytes E (description body)) in S by (unfold commitment; rewrite <- !app_assoc; reflexivity).
  unfold challenge. set (c := firstn 24 (e_blake E (commitment (compressed pk) (compressed w) ++ streamed_bytes E (description body)))) in *. cbv zeta in S |- *.
  destruct (be_value c =? 0) eqn:Z; [apply N.eqb_eq, Z|discriminate].
Qed.
Lemma sign_finish : forall E key tr st sid start body r h, env_ok E -> history E key tr st -> signing sid tr start body -> on_screen tr = None ->
  event_ok (Apdu CLA INS_SIGN 0x20 sid [] r) -> sx_head (description body) = Some h -> outputs_done (description body) h ->
  blen (sx_outputs (description body)) = sh_outputs h ->
  exists f pages o st', let q := (Apdu CLA INS_SIGN 0x20 sid [] r, [OShow U_STX_TX f pages]) in
    history E key (tr ++ [q] ++ [(UiApprove, o)]) st' /\
    ((exists sig, o = [OResp sig SW_OK] /\ signed_message E start (bytes_to_sign E (description body)) sig) \/
     o = [OResp [] SW_SCHNORR_SIGNING_FAILED] /\ zero_challenge E start (bytes_to_sign E (description body))).
Proof.
  intros E key tr st sid start body r h Henv H Sg Hs Hev Hh Od Bl.
  assert (A : accepted (snd (step E st (Apdu CLA INS_SIGN 0x20 sid [] r))) = true).
  { apply (accepts E key tr st sid start body 0x20 [] r); try assumption; [discriminate|]. right. exists h. split; assumption. }
  destruct (step E st (Apdu CLA INS_SIGN 0x20 sid [] r)) as [st1 outs] eqn:Es. cbn [snd] in A.
  pose proof (history_shape _ _ _ _ H) as Sh. pose proof (step_move _ _ _ _ _ Sh Es) as M.
  assert (exists f pages, outs = [OShow U_STX_TX f pages]) as (f & pages & ->).
  { inversion M; subst; try discriminate; try congruence; try solve [other].
    - exfalso. match goal with K0 : refused _ _ _ |- _ => rename K0 into R end. unfold refused in R. decompose [and or] R; subst; discriminate A.
    - exfalso. match goal with K0 : handler_error s = true \/ _ |- _ => rename K0 into R end. destruct R as [R|(-> & _)]; [|discriminate A].
      pose proof (err_not_accepted st s R) as R'. unfold handler_err in R'. cbn [snd] in R'. congruence.
    - exfalso. match goal with K0 : sign_exec _ _ _ _ _ = _, K1 : _ = A_OK \/ _ |- _ => unfold sign_exec in K0; destruct K1 as [-> | [-> _]]; discriminate K0 end.
    - eauto. }
  clear M A. set (q := (Apdu CLA INS_SIGN 0x20 sid [] r, [OShow U_STX_TX f pages])).
  assert (H1 : history E key (tr ++ [q]) st1) by (econstructor; [exact H|exact Hev|exact Es|intros [Q|[]]; discriminate Q]).
  assert (Sg1 : signing sid (tr ++ [q]) start (body ++ [q])).
  { apply signing_snoc; [exact Sg|reflexivity|left; split; reflexivity|reflexivity|intros (cla & pp & d & rr & K & _); discriminate K]. }
  assert (D1 : description (body ++ [q]) = description body) by (rewrite description_snoc; reflexivity).
  assert (S1 : on_screen (tr ++ [q]) = Some (fst q, U_STX_TX, f, pages)) by (rewrite on_screen_snoc; reflexivity).
  destruct (paged_session _ _ _ _ _ _ _ _ Henv H1 S1 (or_intror eq_refl)) as (g & start' & body' & s & X1 & X2 & X3 & X4 & X5 & X6 & X7 & X8 & _).
  destruct Sg1 as ((O1 & _) & _). rewrite O1 in X4. injection X4 as <- <-.
  unfold sign_phase in X8. rewrite X2, D1 in X8. destruct X8 as (_ & h' & W & F & S). destruct F as ((F1 & F2 & F3) & F4 & F5 & F6 & F7 & F8).
  assert (Fin : final_state E start (body ++ [q]) (sg_session g) s h') by (constructor; rewrite ?D1; eauto).
  assert (h' = h). { pose proof (w_head _ _ _ W). congruence. } subst h'.
  assert (Co : Forall (fun o => output_complete o = true) (sx_outputs (description body))).
  { apply filter_all. rewrite Bl. exact Od. }
  assert (exists sk ch, e_derive E (ss_path s) = Some (sk, ch)) as (sk & ch & D).
  { destruct X5 as (p2 & data & r' & f' & sk & ch & pk & w & _ & _ & _ & _ & _ & _ & _ & _ & X & _). eauto. }
  exists f, pages.
  assert (St : step E st1 UiApprove = ui_action_stx_tx E st1 g true) by (cbn [step]; unfold ui_action; rewrite X3, X1; reflexivity).
  destruct (step E st1 UiApprove) as [st2 o2] eqn:E2. exists o2, st2. cbv zeta. fold q.
  assert (O2 : o2 = [match p2pk_send_response E (sg_op g) with Ok s => OResp s SW_OK | Fail s => resp s end]) by (unfold ui_action_stx_tx in St; congruence).
  unfold p2pk_send_response in O2. rewrite F4, F2, D, F1, F5, <- D1 in O2.
  split.
  { rewrite app_assoc. econstructor; [exact H1|exact I|exact E2|]. subst o2. destruct (schnorr_sign_finish _ _ _ _); intros [Q|[]]; discriminate Q. }
  rewrite <- (streamed_complete E (description body) Co), <- D1.
  destruct (schnorr_sign_finish E (ss_prefix s ++ tx_bytes E (description (body ++ [q])) h) sk (ss_key s)) as [sig|] eqn:Fi; subst o2.
  - left. exists sig. split; [reflexivity|]. destruct (signed_schnorr _ _ _ _ _ _ _ _ _ Henv Fin D Fi) as (A & B & C). exists sk, (ss_key s). auto.
  - right. split; [reflexivity|]. eapply unsigned_zero; eauto.
Qed.

(** ** The whole transaction *)

Lemma firstn_In : forall A n (l : list A) x, In x (firstn n l) -> In x l.
Proof. intros A n l x H. rewrite <- (firstn_skipn n l). apply in_or_app. left. exact H. Qed.
Lemma skipn_In : forall A n (l : list A) x, In x (skipn n l) -> In x l.
Proof. intros A n l x H. rewrite <- (firstn_skipn n l). apply in_or_app. right. exact H. Qed.
Lemma commands_ok : forall E key w sid r, env_ok E -> tx_fits E w -> rnd_ok r -> sid < 256 ->
  Forall (fun c => event_ok (Apdu CLA INS_SIGN (fst c) sid (snd c) r) /\ fst c <> 1 /\ fst c <> 0x20) (tx_commands E key w).
Proof.
  intros E key w sid r Henv (_ & _ & _ & Ft & Fi & Fd & Fo & _) R Sid.
  assert (Ev : forall c, 0x10 <= fst c <= 0x1A -> bytes_ok (snd c) = true -> (length (snd c) <= 255)%nat ->
    event_ok (Apdu CLA INS_SIGN (fst c) sid (snd c) r) /\ fst c <> 1 /\ fst c <> 0x20).
  { intros [sub data] A B C. cbn [fst snd] in *. destruct R as [R1 R2]. split; [|split; lia]. unfold event_ok. do 2 (split; [reflexivity|]). split; [lia|]. do 5 (split; try assumption). }
  assert (P : forall sub n l, 0x10 <= sub <= 0x1A -> (n <= 255)%nat ->
    Forall (fun c => fst c = sub /\ bytes_ok (snd c) = true /\ (length (snd c) <= n)%nat) l ->
    Forall (fun c => event_ok (Apdu CLA INS_SIGN (fst c) sid (snd c) r) /\ fst c <> 1 /\ fst c <> 0x20) l).
  { intros sub n l Hsub Hn. apply Forall_impl. intros c (A & B & L). apply Ev; [rewrite A; exact Hsub|exact B|lia]. }
  unfold tx_commands. apply Forall_app. split; [|apply Forall_app; split; [|apply Forall_app; split; [|apply Forall_app; split]]].
  - constructor; [|constructor]. apply Ev; [cbn; lia| |]; cbn [fst snd]; [rewrite !bytes_ok_app, !be_bytes_ok; reflexivity|rewrite !app_length, !be_bytes_length; lia].
  - apply (P 0x11 224%nat); [lia|lia|]. apply packets_ok; [lia|]. rewrite <- (map_id (w_tokens w)). apply bytes_ok_concat. revert Ft. apply Forall_impl. intros a [_ A]. exact A.
  - apply Forall_concat. apply Forall_forall. intros l Hl. apply in_map_iff in Hl as (x & <- & Hx). rewrite Forall_forall in Fi. destruct (Fi _ Hx) as (Fb & Fe & _).
    unfold input_commands. apply Forall_app. split; [|apply (P 0x13 255%nat); [lia|lia|apply packets_ok; [lia|exact Fe]]].
    apply Forall_forall. intros c Hc. apply in_map_iff in Hc as (i & <- & Hi). apply Ev; [cbn; lia| |]; cbn [fst snd].
    + assert (T : blen (wb_tokens (fst x)) <= 20) by (destruct Fb as (_ & _ & _ & _ & _ & _ & _ & T & _); exact T).
      assert (Hi' : i < frame_total (described (fst x))) by (pose proof (numbers_below (frame_total (described (fst x)))) as Nb; rewrite Forall_forall in Nb; apply Nb; exact Hi).
      assert (W : frame_total (described (fst x)) <= 5).
      { unfold frame_total, described. cbn [sb_tokens]. apply N.max_lub; [lia|]. zify; Z.to_euclidean_division_equations; lia. }
      rewrite bytes_ok_app. apply andb_true_iff. split; [|destruct (i =? 0); [apply be_bytes_ok|reflexivity]].
      unfold tagged, frame_of. rewrite !bytes_ok_app, be_bytes_ok. unfold box_id. rewrite (ok_blake_bytes _ Henv). rewrite (bytes_ok_firstn _ _ (ok_hmac_bytes _ Henv _ _)).
      assert (O1 : forall v, v < 256 -> bytes_ok [v] = true) by (intros v Hv; apply bytes_ok_cons; split; [exact Hv|reflexivity]). rewrite !O1.
      * cbn [andb]. rewrite andb_true_r. apply bytes_ok_concat, Forall_forall. intros t Ht.
        rewrite bytes_ok_app, be_bytes_ok, andb_true_r. destruct Fb as (_ & _ & _ & _ & _ & _ & Fk & _). rewrite Forall_forall in Fk.
        destruct (Fk t) as ((_ & Q) & _); [|exact Q]. cbn [described sb_tokens] in Ht. eapply skipn_In, firstn_In, Ht.
      * unfold blen. rewrite firstn_length. lia.
      * lia.
      * lia.
    + assert (Hi' : i < frame_total (described (fst x))) by (pose proof (numbers_below (frame_total (described (fst x)))) as Nb; rewrite Forall_forall in Nb; apply Nb; exact Hi).
      destruct (frame_data E key (fst x) i (if i =? 0 then be_bytes 4 (blen (snd x)) else []) Henv Fb Hi') as (_ & _ & _ & _ & _ & _ & _ & L & _). cbv zeta in L. rewrite L, firstn_length.
      assert (length (if (i =? 0)%N then be_bytes 4 (blen (snd x)) else []) <= 4)%nat by (destruct (i =? 0); [rewrite be_bytes_length|cbn]; lia). lia.
  - apply (P 0x14 224%nat); [lia|lia|]. apply packets_ok; [lia|]. rewrite <- (map_id (w_data w)). apply bytes_ok_concat. revert Fd. apply Forall_impl. intros a [_ A]. exact A.
  - apply Forall_concat. apply Forall_forall. intros l Hl. apply in_map_iff in Hl as (o & <- & Ho). rewrite Forall_forall in Fo. destruct (Fo _ Ho) as (_ & _ & Dt & _ & _ & _ & Rg & _).
    unfold output_commands. apply Forall_app. split; [|apply Forall_app; split; [|apply Forall_app; split]].
    + constructor; [|constructor]. apply Ev; [cbn; lia| |]; cbn [fst snd]; [rewrite !bytes_ok_app, !be_bytes_ok; reflexivity|rewrite !app_length, !be_bytes_length; lia].
    + destruct (wo_dest o) as [t| |p]; cbn [dest_commands dest_fits] in *.
      * apply (P 0x16 255%nat); [lia|lia|apply script_packets_ok, Dt].
      * constructor; [|constructor]. apply Ev; cbn; [lia|reflexivity|lia].
      * constructor; [|constructor]. destruct Dt as (_ & _ & Lp & _). apply Ev; [cbn; lia| |]; cbn [fst snd].
        -- rewrite bytes_ok_app, be_bytes_ok. apply bytes_ok_concat, Forall_forall. intros. apply be_bytes_ok.
        -- rewrite app_length, be_bytes_length. assert (length (concat (map (be_bytes 4) p)) = 4 * length p)%nat; [|lia].
           clear. induction p as [|x p IH]; [reflexivity|]. cbn [map concat]. rewrite app_length, be_bytes_length, IH. cbn [length]. lia.
    + apply (P 0x19 252%nat); [lia|lia|]. apply packets_ok; [lia|]. apply bytes_ok_concat, Forall_forall. intros. rewrite bytes_ok_app, !be_bytes_ok. reflexivity.
    + apply (P 0x1A 255%nat); [lia|lia|apply packets_ok; [lia|exact Rg]].
Qed.

Lemma wanted_strip : forall E w, strip (wanted E w) = wanted E w.
Proof. intros E w. unfold strip, on_outputs, wanted. cbn [sx_head sx_tokens sx_inputs sx_data sx_outputs]. rewrite map_map. reflexivity. Qed.
Lemma wanted_complete : forall o, output_complete (wanted_output o) = true.
Proof.
  intro o. unfold output_complete, tree_complete, wanted_output. cbn [so_dest so_tree_len so_tokens so_ntokens so_regs so_regs_len].
  rewrite !N.eqb_refl. destruct (wo_dest o); cbn [declared_len]; rewrite ?N.eqb_refl; reflexivity.
Qed.
Lemma wanted_done : forall E w, count_complete output_complete (sx_outputs (wanted E w)) = blen (w_outputs w).
Proof.
  intros E w. unfold count_complete. replace (blen (w_outputs w)) with (blen (sx_outputs (wanted E w))) by (unfold wanted, blen; cbn [sx_outputs]; rewrite map_length; reflexivity).
  apply filter_all. cbn [wanted sx_outputs]. apply Forall_forall. intros o Ho. apply in_map_iff in Ho as (x & <- & _). apply wanted_complete.
Qed.

Theorem sign_whole : forall E key tr st w p2 data r, env_ok E -> history E key tr st -> on_screen tr = None ->
  event_ok (Apdu CLA INS_SIGN 1 p2 data r) -> sign_request_ok E p2 data r -> tx_fits E w ->
  exists sid tr1 answer st' start, history E key (tr ++ tr1 ++ [(UiApprove, answer)]) st' /\
    nth_error tr1 0 = Some start /\ nth_error tr1 1 = Some (UiApprove, [OResp [sid] SW_OK]) /\
    requests tr1 = sign_requests E key w p2 data sid r /\ user_approves tr1 /\ all_accepted tr1 /\
    ((exists sig, answer = [OResp sig SW_OK] /\ signed_message E start (bytes_to_sign E (wanted E w)) sig) \/
     answer = [OResp [] SW_SCHNORR_SIGNING_FAILED] /\ zero_challenge E start (bytes_to_sign E (wanted E w))).
Proof.
  intros E key tr st w p2 data r Henv H Hs Ev Rq Fit.
  destruct (sign_opens E key tr st p2 data r Henv H Hs Rq Ev) as (f & sid & st1 & H1 & Sg1 & Hs1 & [S0 S]). cbv zeta in *.
  set (start := (Apdu CLA INS_SIGN 1 p2 data r, [OShow U_STX_APPROVE f []])) in *. set (a := (UiApprove, [OResp [sid] SW_OK])) in *.
  assert (R : rnd_ok r) by (destruct Ev as (_ & _ & _ & _ & _ & _ & R1 & R2); split; assumption).
  destruct (tx_run E key w Fit Henv) as [Ch Af].
  assert (D0 : strip (description [a]) = s_empty) by reflexivity. rewrite <- D0 in Ch, Af.
  destruct (sign_run E key sid start r _ _ _ _ Henv H1 Sg1 Hs1 (commands_ok E key w sid r Henv Fit R S) Ch) as (tr2 & st2 & H2 & Sg2 & Hs2 & D2 & Q2 & U2 & A2).
  rewrite Af in D2.
  assert (Ev2 : event_ok (Apdu CLA INS_SIGN 0x20 sid [] r)). { destruct R as [R1 R2]. unfold event_ok. do 3 (split; [reflexivity|]). split; [exact S|]. split; [reflexivity|]. split; [cbn; lia|]. split; assumption. }
  set (body := [a] ++ tr2) in *.
  assert (Hd : sx_head (description body) = sx_head (wanted E w)) by (rewrite <- D2; reflexivity).
  assert (Ho : map strip_o (sx_outputs (description body)) = sx_outputs (wanted E w)) by (rewrite <- D2; reflexivity).
  assert (Od : count_complete output_complete (sx_outputs (description body)) = blen (w_outputs w)) by (rewrite <- strip_count, Ho; apply wanted_done).
  assert (Bl : blen (sx_outputs (description body)) = blen (w_outputs w)).
  { apply (f_equal (@length _)) in Ho. cbn [wanted sx_outputs] in Ho. rewrite !map_length in Ho. unfold blen. rewrite Ho. reflexivity. }
  destruct (sign_finish E key _ _ _ _ _ r _ Henv H2 Sg2 Hs2 Ev2 Hd Od Bl) as (f' & pages & o & st3 & H3 & An). cbv zeta in *.
  assert (Bs : bytes_to_sign E (description body) = bytes_to_sign E (wanted E w)) by (rewrite <- D2; symmetry; apply strip_bytes).
  exists sid, (start :: a :: tr2 ++ [(Apdu CLA INS_SIGN 0x20 sid [] r, [OShow U_STX_TX f' pages])]), o, st3, start.
  split. { rewrite <- !app_assoc in H3. cbn [List.app] in *. rewrite <- !app_assoc. exact H3. }
  do 2 (split; [reflexivity|]).
  split. { change (requests ([start] ++ [a] ++ tr2 ++ [(Apdu CLA INS_SIGN 0x20 sid [] r, [OShow U_STX_TX f' pages])]) = sign_requests E key w p2 data sid r).
    rewrite !requests_app, Q2. unfold sign_requests. rewrite map_app. reflexivity. }
  split. { constructor; [intro K; discriminate K|]. constructor; [intros _; reflexivity|]. apply Forall_app. split; [exact U2|]. constructor; [intro K; discriminate K|constructor]. }
  split; [|rewrite <- Bs; exact An]. constructor; [reflexivity|]. constructor; [reflexivity|]. apply Forall_app. split; [exact A2|]. constructor; [reflexivity|constructor].
Qed.

(** ** Checking a transaction *)

Lemma amount_le_total : forall id l, amount_of id l <= total (map snd l).
Proof.
  intros id l. unfold amount_of. induction l as [|[i v] l IH]; [cbn; lia|]. cbn [filter map snd fst]. destruct (bytes_eqb i id); cbn [map snd total fold_right] in *; unfold total in *; lia.
Qed.
Lemma range_of_totals : forall d, total_in d < 2 ^ 64 -> fees d + change d <= total_in d -> total (map snd (input_tokens d)) < 2 ^ 63 ->
  total (map snd (output_tokens d)) < 2 ^ 63 -> in_range d /\ forall id, amount_of id (input_tokens d) < 2 ^ 63.
Proof.
  intros d A B C D. assert (K : forall id, amount_of id (input_tokens d) < 2 ^ 63) by (intro id; pose proof (amount_le_total id (input_tokens d)); lia).
  split; [|exact K]. do 2 (split; [assumption|]). intro id. specialize (K id). pose proof (amount_le_total id (output_tokens d)). unfold balance. lia.
Qed.
Lemma short_no_repeat : forall l, (length l <= 1)%nat -> no_repeat l.
Proof. intros l H a id v b w c ->. rewrite !app_length in H. cbn [length] in H. rewrite app_length in H. cbn [length] in H. lia. Qed.
