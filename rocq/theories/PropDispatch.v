(** C30-C32, C42, C43, C47, C48, C52, C53: the command interface and the screens. *)
From Coq Require Import String.
From Verif Require Import Lib Env UiFlow P2pkOp App SpecTrace SpecTx SpecApdu SpecAmounts SpecScreen SpecDispatch Toy TraceUb DispatchProofs FlowProofs.

(** C30.  Wrong class, unknown instruction, wrong parameters: the error and no change at
    all, in every state, reachable or not. *)
Theorem C30_class : forall E st cla ins p1 p2 data r, cla <> CLA ->
  step E st (Apdu cla ins p1 p2 data r) = (st, [OResp [] SW_CLA_NOT_SUPPORTED]).
Proof. exact wrong_class. Qed.
Print Assumptions C30_class.
Theorem C30_instruction : forall E st ins p1 p2 data r, known_ins ins = false ->
  step E st (Apdu CLA ins p1 p2 data r) = (st, [OResp [] SW_INS_NOT_SUPPORTED]).
Proof. exact unknown_instruction. Qed.
Print Assumptions C30_instruction.
Theorem C30_parameters : forall E st ins p1 p2 data r, known_ins ins = true -> params_ok ins p1 p2 = false ->
  step E st (Apdu CLA ins p1 p2 data r) = (st, [OResp [] SW_WRONG_P1P2]).
Proof. exact wrong_params. Qed.
Print Assumptions C30_parameters.
(** Every APDU is answered exactly once: by a response or by a screen. *)
Theorem C30_one_answer : forall E key tr st cla ins p1 p2 data r outs,
  history E key (tr ++ [(Apdu cla ins p1 p2 data r, outs)]) st -> exists o, outs = [o].
Proof. exact one_answer. Qed.
Print Assumptions C30_one_answer.
(** An APDU that passes these checks is handled by its instruction: none of the three
    errors (but for P2 of a start command, looked at later), and only its own screens. *)
Theorem C30_handled : forall E key tr st ins p1 p2 data r outs,
  history E key (tr ++ [(Apdu CLA ins p1 p2 data r, outs)]) st ->
  known_ins ins = true -> params_ok ins p1 p2 = true ->
  (forall b s, In (OResp b s) outs -> s <> SW_CLA_NOT_SUPPORTED /\ s <> SW_INS_NOT_SUPPORTED /\
     (s = SW_WRONG_P1P2 -> (ins = INS_ATTEST \/ ins = INS_SIGN) /\ p1 = 1 /\ p2 <> 1 /\ p2 <> 2)) /\
  (forall k f pages, In (OShow k f pages) outs -> In k (screens_of ins)).
Proof. exact handled. Qed.
Print Assumptions C30_handled.

(** The sample signing with noise: four refused commands while the first screen is up. *)
Definition NOISE : list event :=
  [Apdu 0xE1 0x10 1 0 [] RND; cmd_of 0x22 1 1 []; cmd_of INS_KEY 3 0 []; cmd_of INS_ADDRESS 1 0 []].
Definition ASKING : list event := ATTEST_FRAME ++ SIGN_START ++ SIGN_INPUTS ++ firstn 3 SIGN_OUTPUTS.
Example C30_ex : playable (ASKING ++ NOISE) = true /\ final (ASKING ++ NOISE) = final ASKING /\
  map snd (skipn (length ASKING) (trace (ASKING ++ NOISE))) =
  [[OResp [] SW_CLA_NOT_SUPPORTED]; [OResp [] SW_INS_NOT_SUPPORTED]; [OResp [] SW_WRONG_P1P2]; [OResp [] SW_WRONG_P1P2]].
Proof. vm_compute. auto. Qed.

(** C31.  Version and name: the same bytes in every state, and no change. *)
Theorem C31_version : forall E st data r, step E st (Apdu CLA INS_VERSION 0 0 data r) = (st, [OResp [0; 0; 5; 0] SW_OK]).
Proof. exact version_query. Qed.
Print Assumptions C31_version.
Theorem C31_name : forall E st data r, step E st (Apdu CLA INS_NAME 0 0 data r) = (st, [OResp [0x45; 0x72; 0x67; 0x6f] SW_OK]).
Proof. exact name_query. Qed.
Print Assumptions C31_name.
(** While a screen is up. *)
Example C31_ex : on_screen (trace ASKING) <> None /\
  map snd (skipn (length ASKING) (trace (ASKING ++ [cmd_of INS_VERSION 0 0 []; cmd_of INS_NAME 0 0 [1]]))) =
  [[OResp [0; 0; 5; 0] SW_OK]; [OResp [0x45; 0x72; 0x67; 0x6f] SW_OK]].
Proof. split; vm_compute; [discriminate|reflexivity]. Qed.

(** C32.  While a question is on the screen, every command that needs the device idle is
    answered BUSY and changes nothing; whatever the host sends, the question and the
    whole state stay as they are; and BUSY is answered only then. *)
Theorem C32_busy : forall E key tr st q ins p1 p2 data r, env_ok E -> history E key tr st ->
  on_screen tr = Some q -> interactive ins = true -> params_ok ins p1 p2 = true ->
  step E st (Apdu CLA ins p1 p2 data r) = (st, [OResp [] SW_BUSY]).
Proof. exact screen_refuses. Qed.
Print Assumptions C32_busy.
Theorem C32_host : forall E key tr tr' st st' q, env_ok E -> history E key tr st -> history E key (tr ++ tr') st' ->
  on_screen tr = Some q -> Forall (fun o => by_user (fst o) = false) tr' ->
  st' = st /\ on_screen (tr ++ tr') = Some q /\ Forall (fun o => exists b s, snd o = [OResp b s]) tr'.
Proof. exact host_cannot_touch. Qed.
Print Assumptions C32_host.
Theorem C32_only_then : forall E key tr st e outs b, env_ok E -> history E key (tr ++ [(e, outs)]) st ->
  In (OResp b SW_BUSY) outs -> on_screen tr <> None.
Proof. exact busy_only_then. Qed.
Print Assumptions C32_only_then.
Example C32_ex : on_screen (trace ASKING) <> None /\
  map snd (skipn (length ASKING) (trace (ASKING ++ [sign_cmd 0x20 []; cmd_of INS_KEY 1 0 []]))) = [[OResp [] SW_BUSY]; [OResp [] SW_BUSY]].
Proof. split; vm_compute; [discriminate|reflexivity]. Qed.

(** C42.  Rejecting answers the deny status alone; the session is gone, the remembered
    application and the device key stay; the screen is down.  With no question on the
    screen the buttons of a question do nothing. *)
Theorem C42_reject : forall E key tr st q, env_ok E -> history E key tr st -> on_screen tr = Some q ->
  exists st', step E st UiReject = (st', [OResp [] SW_DENY]) /\ st_cmd st' = CMD_NONE /\ st_ctx st' = X_NONE /\
    st_connected st' = st_connected st /\ st_key st' = st_key st /\ on_screen (tr ++ [(UiReject, [OResp [] SW_DENY])]) = None.
Proof. exact reject_screen. Qed.
Print Assumptions C42_reject.
Theorem C42_no_screen : forall E key tr st e, env_ok E -> history E key tr st -> on_screen tr = None ->
  In e [UiApprove; UiReject; UiPathBoth; UiUpper; UiLower] -> step E st e = (st, []).
Proof. exact no_screen_buttons. Qed.
Print Assumptions C42_no_screen.
Example C42_ex : on_screen (trace ASKING) <> None /\ st_ctx (final ASKING) <> X_NONE /\
  snd (step toy (final ASKING) UiReject) = [OResp [] SW_DENY] /\
  on_screen (trace ATTEST) = None /\ snd (step toy (final ATTEST) UiApprove) = [].
Proof.
  split; [vm_compute; discriminate|]. split; [vm_compute; discriminate|].
  split; [vm_compute; reflexivity|]. split; vm_compute; reflexivity.
Qed.

(** C43.  At most one output per event; an answer other than success is a bare status; the
    data of a success has a documented length; everything fits the buffer of 260 bytes. *)
Theorem C43_sizes : forall E key tr st e outs, env_ok E -> history E key (tr ++ [(e, outs)]) st ->
  (length outs <= 1)%nat /\ forall b s, In (OResp b s) outs ->
    (s <> SW_OK -> b = []) /\ (s = SW_OK -> In (blen b) (answer_sizes (on_screen tr) e)) /\ (length b + 2 <= 260)%nat.
Proof. exact answers. Qed.
Print Assumptions C43_sizes.
Example C43_ex : map (fun o => match snd o with [OResp b SW_OK] => blen b | [OShow _ _ _] => 1000 | _ => 2000 end) (trace SIGN_ALL) =
  [1000; 1; 0; 1; 99; 1000; 1; 0; 0; 0; 0; 0; 1000; 0; 0; 0; 0; 0; 0; 1000; 56].
Proof. vm_compute. reflexivity. Qed.

(** C47.  Every flow shown has its own screens, approve and reject, the loop and end
    markers, within the table, and between 1 and 254 pages if it has computed pages; the
    allocation checks never fail. *)
Theorem C47_flow : forall E key tr st e outs k f pages, env_ok E -> history E key (tr ++ [(e, outs)]) st ->
  In (OShow k f pages) outs -> flow_ok k f pages.
Proof. exact shown_flow. Qed.
Print Assumptions C47_flow.
Theorem C47_no_overflow : forall E key tr st e outs b, env_ok E -> history E key (tr ++ [(e, outs)]) st ->
  ~ In (OResp b SW_SCREENS_BUFFER_OVERFLOW) outs.
Proof. exact device_clean. Qed.
Print Assumptions C47_no_overflow.
(** However the table is filled, no more than its eight checked cells are written; the
    menus fit too. *)
Theorem C47_cells : forall f n, (length f <= 8)%nat ->
  (forall s, (length (snd (ui_add_screen s f)) <= 8)%nat) /\
  (forall g, ui_approve_reject_screens f = Some g -> (length g <= 8)%nat) /\
  (forall g d, ui_add_dynamic_flow_screens f n = Some (g, d) -> (length g <= 8)%nat) /\
  (forall g, ui_display_screens f = Some g -> (length g <= 8)%nat).
Proof. exact table_cells. Qed.
Print Assumptions C47_cells.
Theorem C47_menus : exists m a, menu_flow = Some m /\ about_flow = Some a /\ (length m <= 8)%nat /\ (length a <= 8)%nat.
Proof. exact menus_fit. Qed.
Print Assumptions C47_menus.
(** The widest flow: address export with a token. *)
Example C47_ex : exists f, snd (step toy (init TOY_KEY) (cmd_of INS_ADDRESS 2 2 ([0] ++ path_bytes ADDRESS0 ++ be_bytes 4 0x11223344))) = [OShow U_DA f []] /\
  length f = 8%nat.
Proof. eexists. split; vm_compute; reflexivity. Qed.

(** C48.  A page drawn is one of the pages of the question on the screen, with its own
    number, title and text. *)
Theorem C48_page : forall E key tr st e outs i t b, env_ok E -> history E key (tr ++ [(e, outs)]) st -> In (OPage i t b) outs ->
  exists q k f pages, on_screen tr = Some (q, k, f, pages) /\ i < blen pages /\ nth_error pages (N.to_nat i) = Some (Ok (t, b)).
Proof. exact page_drawn. Qed.
Print Assumptions C48_page.
(** Walking right through the question just put on the screen draws every page once, in
    order, and comes out in the same state; walking left draws them in reverse. *)
Theorem C48_walk : forall E key tr st e k f ps, env_ok E ->
  history E key (tr ++ [(e, [OShow k f (map (fun p => Ok p) ps)])]) st -> k = U_STX_OUTPUT \/ k = U_STX_TX ->
  run E st (UiUpper :: repeat UiLower (length ps)) = (st, drawn_all ps ++ [[]]) /\
  run E st (UiLower :: repeat UiUpper (length ps)) = (st, rev (drawn_all ps) ++ [[]]).
Proof. exact walk_pages. Qed.
Print Assumptions C48_walk.
(** Whatever is pressed, the page asked for is below the page count. *)
Theorem C48_range : forall n evs, 1 <= n <= 254 ->
  let press (s : dyn * list (option N)) (right : bool) :=
    let r := (if right then ui_dynamic_step_right else ui_dynamic_step_left) (fst s) in (fst r, snd s ++ [snd r]) in
  Forall (fun p => match p with Some i => i < n | None => True end) (snd (fold_left press evs (mk_dyn n INDEX_NOT_EXIST, []))).
Proof. exact presses_in_range. Qed.
Print Assumptions C48_range.
(** The first output of the sample signing has four pages. *)
Definition ASKED : flow * list (text * text) :=
  match last (trace ASKING) (BadApdu, []) with
  | (_, [OShow _ f pages]) => (f, map (fun p => match p with Ok x => x | Fail _ => ([], []) end) pages)
  | _ => ([], [])
  end.
Example C48_ex : playable ASKING = true /\
  trace ASKING = removelast (trace ASKING) ++
    [(sign_cmd 0x19 (be_bytes 4 0 ++ be_bytes 8 400), [OShow U_STX_OUTPUT (fst ASKED) (map (fun p => Ok p) (snd ASKED))])] /\
  length (snd ASKED) = 4%nat /\
  snd (run toy (final ASKING) [UiUpper; UiLower; UiLower; UiLower; UiLower]) = drawn_all (snd ASKED) ++ [[]].
Proof. do 3 (split; [vm_compute; reflexivity|]). vm_compute. reflexivity. Qed.

(** C52.  The only undefined operation reachable is the negation of C53: drawing a page of
    the final confirmation of a transaction with a token deficit of exactly 2^63. *)
Theorem C52_no_undefined : forall E key tr st e outs, env_ok E -> history E key (tr ++ [(e, outs)]) st -> In OUb outs ->
  (e = UiUpper \/ e = UiLower) /\ exists q f pages start body id,
    on_screen tr = Some (q, U_STX_TX, f, pages) /\ session_of INS_SIGN tr = Some (start, body) /\
    In id (token_ids (description body)) /\ balance (description body) id = (- 2 ^ 63)%Z.
Proof. exact device_ub. Qed.
Print Assumptions C52_no_undefined.
Theorem C52_commands : forall E key tr st cla ins p1 p2 data r outs, env_ok E ->
  history E key (tr ++ [(Apdu cla ins p1 p2 data r, outs)]) st -> ~ In OUb outs.
Proof. exact no_command_ub. Qed.
Print Assumptions C52_commands.
Example C52_ex : playable SIGN_ALL = true /\
  forallb (fun o => match o with OUb => false | _ => true end) (concat (map snd (trace SIGN_ALL))) = true.
Proof. split; vm_compute; reflexivity. Qed.

(** C53.  The claim "negating a token balance for display never overflows" is false: a
    transaction minting 2^63 units of a token in two outputs. *)
Definition MINT : list event :=
  ATTEST_FRAME ++ SIGN_START ++
  [ sign_cmd 0x10 (be_bytes 2 1 ++ be_bytes 2 0 ++ be_bytes 1 2 ++ be_bytes 2 3);
    sign_cmd 0x11 (TOKEN_A ++ TOKEN_B); sign_cmd 0x12 (FRAME ++ be_bytes 4 0);
    output_head 600000000 36 501 1 0; sign_cmd 0x16 OTHER_TREE; sign_cmd 0x19 (be_bytes 4 1 ++ be_bytes 8 (2 ^ 62)); UiApprove;
    output_head 1000000 0 501 0 0; sign_cmd 0x17 [];
    output_head 399000000 0 501 1 0; sign_cmd 0x18 (path_bytes ADDRESS0); sign_cmd 0x19 (be_bytes 4 1 ++ be_bytes 8 (2 ^ 62));
    sign_cmd 0x20 []; UiLower ].
Theorem C53_refuted : exists E key tr e st, env_ok E /\ history E key (tr ++ [(e, [OUb])]) st.
Proof. exists toy, TOY_KEY. apply (ub_witness MINT); vm_compute; reflexivity. Qed.
Print Assumptions C53_refuted.
(** It is the only such balance: every other page of the final confirmation is computed
    without it. *)
Theorem C53_otherwise : forall E key tr st e outs, env_ok E -> history E key (tr ++ [(e, outs)]) st ->
  (forall start body id, session_of INS_SIGN tr = Some (start, body) -> In id (token_ids (description body)) ->
     balance (description body) id <> (- 2 ^ 63)%Z) -> ~ In OUb outs.
Proof. exact ub_only_minimum. Qed.
Print Assumptions C53_otherwise.
Example C53_ex : playable SIGN_ALL = true /\
  (match session_of INS_SIGN (trace SIGN_ALL) with
  | Some (_, body) => map (balance (description body)) (token_ids (description body))
  | None => []
  end) = [100%Z].
Proof. split; vm_compute; reflexivity. Qed.
