(** C17-C26, C29: amounts, outputs and frames of signed transactions. *)
From Coq Require Import String.
From Verif Require Import Lib Env UiFlow P2pkOp App SpecVlq SpecText SpecTrace SpecTx SpecApdu SpecAmounts SpecScreen SpecPages SpecSign SpecRules
  Toy SignedProofs RulesProofs OutputRules FrameRules RulesToy.

(** C17.  Path, amount and fee of the final screen: the amount is the inputs minus change
    minus fees, as integers. *)
Theorem C17_amount : forall E key tr st q f pages, env_ok E -> history E key tr st -> on_screen tr = Some (q, U_STX_TX, f, pages) ->
  exists start body amount p1 p2 p3 tokens, session_of INS_SIGN tr = Some (start, body) /\ pages = p1 :: p2 :: p3 :: tokens /\
    let d := description body in
    (Z.of_N amount = Z.of_N (total_in d) - Z.of_N (change d) - Z.of_N (fees d))%Z /\
    total_in d < 2 ^ 64 /\
    path_page "P2PK Path" (start_path (start_data start)) p1 /\
    erg_page "Transaction Amount" amount p2 /\ erg_page "Transaction Fee" (fees d) p3.
Proof. exact final_amounts. Qed.
Print Assumptions C17_amount.
(** The sample transaction: 1 ERG in, 0.001 fee, 0.399 change. *)
Definition FINAL : list event := ATTEST_FRAME ++ SIGN_START ++ SIGN_INPUTS ++ SIGN_OUTPUTS ++ SIGN_CONFIRM.
Definition pages_on (evs : list event) : list page := match on_screen (trace evs) with Some (_, _, _, pages) => pages | None => [] end.
Example C17_ex : playable FINAL = true /\
  total_in (tx_of FINAL) = 1000000000 /\ change (tx_of FINAL) = 399000000 /\ fees (tx_of FINAL) = 1000000 /\
  firstn 2 (skipn 1 (pages_on FINAL)) = [Ok (str "Transaction Amount", str "0.600000000 ERG"); Ok (str "Transaction Fee", str "0.001000000 ERG")].
Proof. vm_compute. auto. Qed.

(** C18.  After them, a pair of pages for each token id whose inputs and outputs differ,
    each once.  [imbalance] (SpecPages.v) says what the second one is: the exact difference
    and its direction; for a deficit of exactly 2^63 the program has undefined behaviour. *)
Theorem C18_tokens : forall E key tr st q f pages, env_ok E -> history E key tr st -> on_screen tr = Some (q, U_STX_TX, f, pages) ->
  exists start body ids, session_of INS_SIGN tr = Some (start, body) /\
    let d := description body in
    NoDup ids /\ (forall id, In id ids <-> balance d id <> 0%Z) /\ (forall id, (- 2 ^ 63 <= balance d id < 2 ^ 63)%Z) /\
    token_pages E (imbalance d) 1 ids (skipn 3 pages).
Proof. exact final_tokens. Qed.
Print Assumptions C18_tokens.
(** 1000 in, 400 and 500 out. *)
Example C18_ex : balance (tx_of FINAL) TOKEN_A = 100%Z /\
  map (fun p => match p with Ok x => x | _ => ([], []) end) (skipn 4 (pages_on FINAL)) = [(str "Token [1] Value", str "Burning: 100")].
Proof. vm_compute. auto. Qed.

(** C19.  After every accepted command the totals fit. *)
Theorem C19_kept : forall E key tr st c, env_ok E -> history E key (tr ++ [c]) st -> continuation INS_SIGN c <> None ->
  exists start body, session_of INS_SIGN (tr ++ [c]) = Some (start, body ++ [c]) /\ in_range (description (body ++ [c])) /\
    Forall (fun o => no_repeat (tokens_of (description (body ++ [c])) o)) (sx_outputs (description (body ++ [c]))).
Proof. exact accepted_range. Qed.
Print Assumptions C19_kept.
(** A command after which they would not fit is refused, and unless it was not looked into
    (something on the screen, bad parameters) the session is gone. *)
Theorem C19_refused : forall E key tr st p1 p2 data r st' outs start body, env_ok E -> history E key tr st ->
  event_ok (Apdu CLA INS_SIGN p1 p2 data r) -> step E st (Apdu CLA INS_SIGN p1 p2 data r) = (st', outs) -> p1 <> 1 ->
  session_of INS_SIGN tr = Some (start, body) -> ~ in_range (describe_cmd (description body) p1 data) ->
  exists s, outs = [OResp [] s] /\ s <> SW_OK /\ (st' = st /\ (s = SW_BUSY \/ s = SW_WRONG_P1P2) \/ cleared st').
Proof. exact range_refused. Qed.
Print Assumptions C19_refused.
(** From such a state there is no signature unless a new session was started and approved. *)
Theorem C19_no_signature : forall E key tr1 tr2 x st1 st sig, env_ok E -> history E key tr1 st1 -> cleared st1 ->
  history E key (tr1 ++ tr2 ++ [x]) st -> signature x = Some sig ->
  exists a start b sid, tr2 = a ++ start :: b /\ is_start INS_SIGN start = true /\ approved_in INS_SIGN sid b.
Proof. exact cleared_signature. Qed.
Print Assumptions C19_no_signature.
(** A fee of 2 ERG with 1 ERG of inputs; a token amount above what 64 bits hold. *)
Definition last_outs (evs : list event) : list output := snd (last (trace evs) NO_OBS).
Definition OPENED (value ntokens : N) : list event := ONE_INPUT 1 ++ [output_head value 36 501 ntokens 0].
Example C19_ex : playable (ONE_INPUT 1) = true /\
  last_outs (OPENED 2000000000 0) = [OResp [] SW_OK] /\
  last_outs (OPENED 2000000000 0 ++ [sign_cmd 0x17 []]) = [OResp [] SW_U64_OVERFLOW] /\
  cleared (final (OPENED 2000000000 0 ++ [sign_cmd 0x17 []])) /\
  fees (describe_cmd (tx_of (OPENED 2000000000 0)) 0x17 []) = 2000000000 /\ total_in (tx_of (OPENED 2000000000 0)) = 1000000000 /\
  last_outs (OPENED 1000000000 1 ++ [sign_cmd 0x16 OTHER_TREE; sign_cmd 0x19 (be_bytes 4 0 ++ be_bytes 8 (2 ^ 63 + 1001))]) = [OResp [] SW_U64_OVERFLOW].
Proof. vm_compute. do 3 (split; [reflexivity|]). split; [split; reflexivity|]. auto. Qed.

(** C20.  In every output of every accepted prefix a token with a non-zero amount is not
    named again; its amount (what the page shows) fits 64 bits. *)
Theorem C20_kept : forall E key tr st c, env_ok E -> history E key (tr ++ [c]) st -> continuation INS_SIGN c <> None ->
  exists start body, session_of INS_SIGN (tr ++ [c]) = Some (start, body ++ [c]) /\
    let d := description (body ++ [c]) in
    Forall (fun o => no_repeat (tokens_of d o) /\ forall id, amount_of id (tokens_of d o) < 2 ^ 64) (sx_outputs d).
Proof. exact amounts_single. Qed.
Print Assumptions C20_kept.
Theorem C20_refused : forall E key tr st p1 p2 data r st' outs start body, env_ok E -> history E key tr st ->
  event_ok (Apdu CLA INS_SIGN p1 p2 data r) -> step E st (Apdu CLA INS_SIGN p1 p2 data r) = (st', outs) -> p1 <> 1 ->
  session_of INS_SIGN tr = Some (start, body) ->
  (let d := describe_cmd (description body) p1 data in ~ Forall (fun o => no_repeat (tokens_of d o)) (sx_outputs d)) ->
  exists s, outs = [OResp [] s] /\ s <> SW_OK /\ (st' = st /\ (s = SW_BUSY \/ s = SW_WRONG_P1P2) \/ cleared st').
Proof. exact repeat_refused. Qed.
Print Assumptions C20_refused.
(** 400 and again 100 of the same token; after a zero amount a second entry is taken. *)
Definition ENTRY (amount : N) : bytes := be_bytes 4 0 ++ be_bytes 8 amount.
Example C20_ex :
  last_outs (OPENED 1000000000 2 ++ [sign_cmd 0x16 OTHER_TREE; sign_cmd 0x19 (ENTRY 400 ++ ENTRY 100)]) = [OResp [] SW_BAD_TOKEN_VALUE] /\
  accepted (last_outs (OPENED 1000000000 2 ++ [sign_cmd 0x16 OTHER_TREE; sign_cmd 0x19 (ENTRY 0 ++ ENTRY 100)])) = true.
Proof. vm_compute. auto. Qed.

(** C21.  When a signature comes out, every complete output was on the screen, with pages
    that say what it is, and was approved; or it is a fee without tokens or change the rule
    of the program ([automatic_change]) covers. *)
Theorem C21_outputs : forall E key tr o st sig, env_ok E -> history E key (tr ++ [o]) st -> signature o = Some sig ->
  exists start body, session_of INS_SIGN tr = Some (start, body) /\
    forall before x after, sx_outputs (description body) = before ++ x :: after -> output_complete x = true ->
      (exists pages, seen_and_approved body before x pages /\ output_pages E (start_network (start_data start)) (description body) x pages) \/
      plain_fee x \/ automatic_change (start_path (start_data start)) before x.
Proof. exact outputs_approved. Qed.
Print Assumptions C21_outputs.
(** The sample session has one of each. *)
Example C21_ex : signature (last (trace SIGN_ALL) NO_OBS) <> None /\
  map (fun o => (so_shown o, so_approved o, output_complete o)) (sx_outputs (tx_of SIGN_ALL)) = [(true, true, true); (false, false, true); (false, false, true)].
Proof. vm_compute. split; [discriminate|reflexivity]. Qed.

(** C22.  Which outputs are shown, exactly. *)
Theorem C22_rule : forall E key tr o st sig, env_ok E -> history E key (tr ++ [o]) st -> signature o = Some sig ->
  exists start body, session_of INS_SIGN tr = Some (start, body) /\
    forall before x after, sx_outputs (description body) = before ++ x :: after ->
      (so_shown x = true <-> output_complete x = true /\ ~ (plain_fee x \/ automatic_change (start_path (start_data start)) before x)).
Proof. exact outputs_shown. Qed.
Print Assumptions C22_rule.
(** The intended rule fails: change to another account is signed unseen; and so is change
    to any account and index after some change was approved. *)
Theorem C22_account_refuted : exists E key tr o st sig start body before x after p, env_ok E /\ history E key (tr ++ [o]) st /\ signature o = Some sig /\
  session_of INS_SIGN tr = Some (start, body) /\ sx_outputs (description body) = before ++ x :: after /\
  output_complete x = true /\ so_shown x = false /\ so_dest x = Some (SD_CHANGE p) /\
  ~ intended_change (start_path (start_data start)) before x /\ nth 2 p 0 <> nth 2 (start_path (start_data start)) 0.
Proof. exact other_account. Qed.
Print Assumptions C22_account_refuted.
Theorem C22_index_refuted : exists E key tr o st sig start body before x after p, env_ok E /\ history E key (tr ++ [o]) st /\ signature o = Some sig /\
  session_of INS_SIGN tr = Some (start, body) /\ sx_outputs (description body) = before ++ x :: after /\
  output_complete x = true /\ so_shown x = false /\ so_dest x = Some (SD_CHANGE p) /\
  ~ intended_change (start_path (start_data start)) before x /\ nth 4 (start_path (start_data start)) 0 + 20 <= nth 4 p 0.
Proof. exact far_change. Qed.
Print Assumptions C22_index_refuted.
(** Index 19 above is not shown, 20 above is. *)
Example C22_ex : last_outs (ONE_INPUT 1 ++ change_to 5 (wallet 0 0 19)) = [OResp [] SW_OK] /\
  existsb (fun o => match o with OShow U_STX_OUTPUT _ _ => true | _ => false end) (last_outs (ONE_INPUT 1 ++ change_to 5 (wallet 0 0 20))) = true.
Proof. vm_compute. auto. Qed.

(** C23.  The pages of an output on the screen: where it goes, its value, and for each of
    its tokens with a non-zero amount, each once, its id and amount. *)
Theorem C23_pages : forall E key tr st q f pages, env_ok E -> history E key tr st -> on_screen tr = Some (q, U_STX_OUTPUT, f, pages) ->
  exists start body before o dest p1 rest, session_of INS_SIGN tr = Some (start, body) /\
    let d := description body in
    sx_outputs d = before ++ [o] /\ output_complete o = true /\ so_dest o = Some dest /\ pages = p1 :: rest /\
    destination_page E (start_network (start_data start)) dest p1 /\
    match dest with
    | SD_CHANGE _ => rest = []
    | _ => exists p2 tokens ids, rest = p2 :: tokens /\ erg_page "Output Value" (so_value o) p2 /\
             NoDup ids /\ (forall id, In id ids <-> exists v, In (id, v) (tokens_of d o) /\ v <> 0) /\
             token_pages E (output_token d o) 1 ids tokens
    end.
Proof. exact output_tokens_shown. Qed.
Print Assumptions C23_pages.
(** The output on the screen is the one in the signed bytes. *)
Theorem C23_signed : forall E key tr o st sig, env_ok E -> history E key (tr ++ [o]) st -> signature o = Some sig ->
  exists start body, session_of INS_SIGN tr = Some (start, body) /\
    signed_message E start (streamed_bytes E (description body)) sig /\
    (Forall (fun o => output_complete o = true) (sx_outputs (description body)) ->
     streamed_bytes E (description body) = bytes_to_sign E (description body)) /\
    forall before x after, sx_outputs (description body) = before ++ x :: after -> so_shown x = true ->
      exists pages, seen_and_approved body before x pages /\ output_pages E (start_network (start_data start)) (description body) x pages.
Proof. exact shown_is_signed. Qed.
Print Assumptions C23_signed.
Definition SHOWN : list event := ATTEST_FRAME ++ SIGN_START ++ SIGN_INPUTS ++ firstn 3 SIGN_OUTPUTS.
Example C23_ex : playable SHOWN = true /\ length (pages_on SHOWN) = 4%nat /\
  map (fun p => match p with Ok x => x | _ => ([], []) end) (firstn 1 (skipn 1 (pages_on SHOWN)) ++ skipn 3 (pages_on SHOWN)) =
  [(str "Output Value", str "0.600000000 ERG"); (str "Token [1] Value", str "400")].
Proof. vm_compute. auto. Qed.

(** C24.  False: two histories with the same screen for change of different value and
    tokens.  (C23_pages: only the path is shown.) *)
Theorem C24_refuted : exists E key tr1 st1 tr2 st2 q1 q2 f pages start1 body1 before1 o1 start2 body2 before2 o2,
  env_ok E /\ history E key tr1 st1 /\ history E key tr2 st2 /\
  on_screen tr1 = Some (q1, U_STX_OUTPUT, f, pages) /\ on_screen tr2 = Some (q2, U_STX_OUTPUT, f, pages) /\
  session_of INS_SIGN tr1 = Some (start1, body1) /\ session_of INS_SIGN tr2 = Some (start2, body2) /\
  sx_outputs (description body1) = before1 ++ [o1] /\ sx_outputs (description body2) = before2 ++ [o2] /\
  (exists p, so_dest o1 = Some (SD_CHANGE p) /\ so_dest o2 = Some (SD_CHANGE p)) /\
  so_value o1 <> so_value o2 /\
  tokens_of (description body1) o1 <> tokens_of (description body2) o2.
Proof. exact change_hidden. Qed.
Print Assumptions C24_refuted.
Theorem C24_pages : forall E key tr st q f pages, env_ok E -> history E key tr st -> on_screen tr = Some (q, U_STX_OUTPUT, f, pages) ->
  forall start body before o p, session_of INS_SIGN tr = Some (start, body) -> sx_outputs (description body) = before ++ [o] ->
  so_dest o = Some (SD_CHANGE p) -> exists page, pages = [page] /\ path_page "Change" p page.
Proof. exact change_pages. Qed.
Print Assumptions C24_pages.
Example C24_ex : playable (CHANGE_SCREEN 1 1) = true /\
  pages_on (CHANGE_SCREEN 1 1) = [Ok (str "Change", str "44'/429'/0'/0/100")].
Proof. vm_compute. auto. Qed.

(** C25, C29.  At a signature: the frame commands accepted are, in order, the frames of the
    inputs; for each input all with a valid tag, all with its box id, numbered 0, 1, ... up
    to the declared count; value and tokens are those stated in them. *)
Theorem C25_attested : forall E key tr o st sig, env_ok E -> history E key (tr ++ [o]) st -> signature o = Some sig ->
  exists start body groups, session_of INS_SIGN tr = Some (start, body) /\ inputs_framed E key body groups /\
    Forall2 (fun i frames => input_complete i = true /\ blen frames = si_count i) (sx_inputs (description body)) groups.
Proof. exact signed_frames. Qed.
Print Assumptions C25_attested.
(** Likewise, for the frames received so far, in every open session. *)
Theorem C25_open : forall E key tr st sid start body, env_ok E -> history E key tr st -> open_session INS_SIGN sid tr start body ->
  exists groups, inputs_framed E key body groups.
Proof. exact open_frames. Qed.
Print Assumptions C25_open.
(** The tag of the frame of the sample session; with one bit of the value flipped it is refused. *)
Definition TAMPERED : bytes := firstn 41 FRAME ++ [N.lxor (nth 41 FRAME 0) 1] ++ skipn 42 FRAME.
Example C25_ex : pieces INS_SIGN 0x12 (body_of SIGN_ALL) = [FRAME ++ [0; 0; 0; 0]] /\
  frame_tag FRAME = firstn 16 (e_hmac toy TOY_KEY (frame_body FRAME)) /\
  last_outs (ATTEST_FRAME ++ SIGN_START ++ firstn 2 SIGN_INPUTS ++ [sign_cmd 0x12 (TAMPERED ++ be_bytes 4 0)]) = [OResp [] SW_BAD_FRAME_SIGNATURE].
Proof. vm_compute. auto. Qed.

(** C29.  A frame is accepted only if attested and in order. *)
Theorem C29_order : forall E key tr st c data, env_ok E -> history E key (tr ++ [c]) st -> continuation INS_SIGN c = Some (0x12, data) ->
  exists start body, session_of INS_SIGN tr = Some (start, body) /\ attested_data E key data /\
    frame_in_order (sx_inputs (description body)) data.
Proof. exact next_frame. Qed.
Print Assumptions C29_order.
(** Any other frame is refused. *)
Theorem C29_refused : forall E key tr st p2 data r st' outs start body, env_ok E -> history E key tr st ->
  event_ok (Apdu CLA INS_SIGN 0x12 p2 data r) -> step E st (Apdu CLA INS_SIGN 0x12 p2 data r) = (st', outs) ->
  session_of INS_SIGN tr = Some (start, body) -> ~ (attested_data E key data /\ frame_in_order (sx_inputs (description body)) data) ->
  exists s, outs = [OResp [] s] /\ s <> SW_OK /\ (st' = st /\ (s = SW_BUSY \/ s = SW_WRONG_P1P2) \/ cleared st').
Proof. exact wrong_frame. Qed.
Print Assumptions C29_refused.
Theorem C29_complete : forall E key tr o st sig, env_ok E -> history E key (tr ++ [o]) st -> signature o = Some sig ->
  exists start body groups, session_of INS_SIGN tr = Some (start, body) /\ inputs_framed E key body groups /\
    Forall2 (fun i frames => input_complete i = true /\ blen frames = si_count i) (sx_inputs (description body)) groups.
Proof. exact signed_frames. Qed.
Print Assumptions C29_complete.
(** A box of six tokens has two frames.  In order they are taken; the second one first, or
    the first one twice, or a frame of another box in between, are refused. *)
Definition SIX : list bytes := map (fun k => repeat k 32) [1; 2; 3; 4; 5; 6].
Definition BIG : list event :=
  ATTEST_FRAME ++
  [ attest_start 1 (repeat 9 32) 0 500000000 36 500 6 0 []; UiApprove; cmd_of INS_ATTEST 2 7 BOX_TREE;
    cmd_of INS_ATTEST 3 7 (concat (map (fun t => t ++ be_bytes 8 1000) SIX)); cmd_of INS_ATTEST 5 7 [0] ].
Definition FRAME1 : bytes := answer BIG.
Definition FRAME2 : bytes := answer (BIG ++ [cmd_of INS_ATTEST 5 7 [1]]).
Definition BIG_SIGN (frames : list bytes) : list event :=
  BIG ++ [cmd_of INS_ATTEST 5 7 [1]] ++ SIGN_START ++ [header 2 0 6 1; sign_cmd 0x11 (concat SIX)] ++ map (sign_cmd 0x12) frames.
Example C29_ex : length FRAME1 = 219%nat /\ length FRAME2 = 139%nat /\
  last_outs (BIG_SIGN [FRAME1 ++ be_bytes 4 0; FRAME2]) = [OResp [] SW_OK] /\
  map si_value (sx_inputs (tx_of (BIG_SIGN [FRAME1 ++ be_bytes 4 0; FRAME2]))) = [500000000] /\
  last_outs (BIG_SIGN [FRAME2]) = [OResp [] SW_BAD_STATE] /\
  last_outs (BIG_SIGN [FRAME1 ++ be_bytes 4 0; FRAME1 ++ be_bytes 4 0]) = [OResp [] SW_BAD_STATE] /\
  last_outs (BIG_SIGN [FRAME1 ++ be_bytes 4 0; FRAME ++ be_bytes 4 0]) = [OResp [] SW_BAD_STATE].
Proof. vm_compute. do 6 (split; [reflexivity|]). reflexivity. Qed.

(** C26.  If nobody else makes tags: every frame accepted is a frame of a box attested
    before, byte for byte. *)
Theorem C26_frame : forall E key tr st pre c post data, env_ok E -> history E key tr st -> no_forgery tr ->
  tr = pre ++ c :: post -> continuation INS_SIGN c = Some (0x12, data) ->
  exists b i, attested_box E key pre b /\ frame_from E key data b i.
Proof. exact authentic_frame. Qed.
Print Assumptions C26_frame.
(** So the id and value of every input are those of one attested box; its tokens too, if
    the ids of attested boxes determine their tokens. *)
Theorem C26_inputs : forall E key tr o st sig, env_ok E -> history E key (tr ++ [o]) st -> signature o = Some sig -> no_forgery tr ->
  exists start body, session_of INS_SIGN tr = Some (start, body) /\
    forall i, In i (sx_inputs (description body)) -> exists b, attested_box E key tr b /\ si_id i = box_id E b /\ si_value i = sb_value b /\
      (ids_unambiguous E key tr -> concat (si_frames i) = sb_tokens b).
Proof. exact signed_values. Qed.
Print Assumptions C26_inputs.
(** The sample session: the frame was the answer to the frame request before. *)
Example C26_ex : no_forgery (trace SIGN_ALL) /\ length (pieces INS_SIGN 0x12 (trace SIGN_ALL)) = 1%nat.
Proof. split; [exact sample_no_forgery|vm_compute; reflexivity]. Qed.
