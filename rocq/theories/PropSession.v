(** C33-C38: sessions and signatures. *)
From Verif Require Import Lib Env UiFlow P2pkOp App SpecTrace SpecTx SpecApdu SpecScreen SpecSign Toy SessionProofs.

(** C33.  Every answer that is a signature is the answer to the user's approval of the
    final screen, in a signing session approved at its start and open since. *)
Theorem C33_consent : forall E key tr o st sig, env_ok E -> history E key (tr ++ [o]) st -> signature o = Some sig ->
  fst o = UiApprove /\ (exists q f pages, on_screen tr = Some (q, U_STX_TX, f, pages)) /\
  exists start body sid, session_of INS_SIGN tr = Some (start, body) /\ approved_in INS_SIGN sid body /\
    Forall (keeps INS_SIGN sid) body.
Proof. exact signature_consent. Qed.
Print Assumptions C33_consent.
Example C33_ex : exists tr o, trace SIGN_ALL = tr ++ [o] /\ history toy TOY_KEY (tr ++ [o]) (final SIGN_ALL) /\ signature o <> None.
Proof.
  exists (removelast (trace SIGN_ALL)), (last (trace SIGN_ALL) (BadApdu, [])). rewrite <- app_removelast_last by (vm_compute; discriminate).
  split; [reflexivity|]. split; [apply trace_history; vm_compute; reflexivity|]. vm_compute. discriminate.
Qed.

(** C34.  Between two signatures there is a new start, approved by the user; after a
    signature no command of the session is accepted. *)
Theorem C34_once : forall E key tr1 o1 tr2 o2 st sig1 sig2, env_ok E ->
  history E key (tr1 ++ o1 :: tr2 ++ [o2]) st -> signature o1 = Some sig1 -> signature o2 = Some sig2 ->
  exists a start b sid, tr2 = a ++ start :: b /\ is_start INS_SIGN start = true /\ approved_in INS_SIGN sid b.
Proof. exact two_signatures. Qed.
Print Assumptions C34_once.
Theorem C34_gone : forall E key tr1 o1 tr2 c st sig, env_ok E ->
  history E key (tr1 ++ o1 :: tr2 ++ [c]) st -> signature o1 = Some sig -> continuation INS_SIGN c <> None ->
  exists a start b sid, tr2 = a ++ start :: b /\ is_start INS_SIGN start = true /\ approved_in INS_SIGN sid b.
Proof. exact signature_ends. Qed.
Print Assumptions C34_gone.
(** Signing the sample twice. *)
Definition SIGN_AGAIN : list event := SIGN_ALL ++ SIGN_START ++ SIGN_INPUTS ++ SIGN_OUTPUTS ++ SIGN_CONFIRM ++ [UiApprove].
Definition signatures (evs : list event) : list nat :=
  map (fun o => match signature o with Some s => length s | None => 0%nat end) (trace evs).
Example C34_ex : playable SIGN_AGAIN = true /\
  signatures SIGN_AGAIN = [0;0;0;0;0;0;0;0;0;0;0;0;0;0;0;0;0;0;0;0;56;0;0;0;0;0;0;0;0;0;0;0;0;0;0;0;56]%nat.
Proof. vm_compute. auto. Qed.

(** C35.  An accepted continuation carries the id of the open session of its own kind. *)
Theorem C35_match : forall E key tr st ins p1 p2 data r outs, env_ok E -> ins = INS_ATTEST \/ ins = INS_SIGN ->
  history E key (tr ++ [(Apdu CLA ins p1 p2 data r, outs)]) st -> p1 <> 1 -> accepted outs = true ->
  exists start body, open_session ins p2 tr start body.
Proof. exact same_session. Qed.
Print Assumptions C35_match.
(** Any other, with no question on the screen, is answered by an error and clears the
    device. *)
Theorem C35_mismatch : forall E key tr st ins p1 p2 data r, env_ok E -> ins = INS_ATTEST \/ ins = INS_SIGN ->
  history E key tr st -> event_ok (Apdu CLA ins p1 p2 data r) -> on_screen tr = None -> p1 <> 0 -> p1 <> 1 -> p2 <> 0 ->
  ~ (exists start body, open_session ins p2 tr start body) ->
  exists st' s, step E st (Apdu CLA ins p1 p2 data r) = (st', [OResp [] s]) /\ handler_error s = true /\ cleared st'.
Proof. exact wrong_session. Qed.
Print Assumptions C35_mismatch.
(** The sample session: a command with its id is accepted, one with another id ends it. *)
Definition OPEN : list event := ATTEST_FRAME ++ SIGN_START ++ SIGN_INPUTS.
Example C35_ex : playable (OPEN ++ [output_head 5 0 1 0 0; cmd_of INS_SIGN 0x17 8 []; sign_cmd 0x17 []]) = true /\
  map snd (skipn (length OPEN) (trace (OPEN ++ [output_head 5 0 1 0 0; cmd_of INS_SIGN 0x17 8 []; sign_cmd 0x17 []]))) =
  [[OResp [] SW_OK]; [OResp [] SW_BAD_SESSION_ID]; [OResp [] SW_BAD_STATE]].
Proof. vm_compute. auto. Qed.

(** C36.  A session id is a byte other than zero, drawn while the start command was
    handled. *)
Theorem C36_nonzero : forall E key tr o st sid, env_ok E -> history E key (tr ++ [o]) st -> gives_session_id tr o sid ->
  exists ins start body, (ins = INS_ATTEST \/ ins = INS_SIGN) /\ session_of ins (tr ++ [o]) = Some (start, body) /\
    In sid (drawn_ids start) /\ 0 < sid < 256.
Proof. exact id_given. Qed.
Print Assumptions C36_nonzero.
(** It may be the id of the session just before. *)
Theorem C36_fresh_refuted : exists E key tr o1 start o2 st sid, env_ok E /\ history E key (tr ++ [o1; start; o2]) st /\
  gives_session_id tr o1 sid /\ is_start INS_SIGN start = true /\ gives_session_id (tr ++ [o1; start]) o2 sid.
Proof. exact id_repeated. Qed.
Print Assumptions C36_fresh_refuted.

(** C37.  An error of a key, address, attestation or signing command leaves everything as
    it was (BUSY, wrong P1/P2), or clears the command and its context; an address request
    for an invalid network clears the context only.  Key and known application stay. *)
Theorem C37_command : forall E key tr st ins p1 p2 data r st' outs b s, env_ok E -> history E key tr st ->
  event_ok (Apdu CLA ins p1 p2 data r) -> interactive ins = true ->
  step E st (Apdu CLA ins p1 p2 data r) = (st', outs) -> In (OResp b s) outs -> s <> SW_OK ->
  st_key st' = st_key st /\ st_connected st' = st_connected st /\
  (st' = st /\ (s = SW_BUSY \/ s = SW_WRONG_P1P2) \/ cleared st' \/
   st_ctx st' = X_NONE /\ ins = INS_ADDRESS /\ s = SW_ADDRESS_GENERATION_FAILED /\ 252 < address_network data).
Proof. exact error_wipes. Qed.
Print Assumptions C37_command.
(** An action of the user answered by an error clears both. *)
Theorem C37_user : forall E key tr st e st' outs b s, env_ok E -> history E key tr st -> event_ok e ->
  by_user e = true -> step E st e = (st', outs) -> In (OResp b s) outs -> s <> SW_OK ->
  st_key st' = st_key st /\ st_connected st' = st_connected st /\ cleared st'.
Proof. exact user_error_wipes. Qed.
Print Assumptions C37_user.
(** In the sample session a second list of token ids is an error; so is the refusal of an
    output by the user. *)
Example C37_ex : st_cmd (final OPEN) = CMD_SIGN /\ snd (step toy (final OPEN) (sign_cmd 0x11 TOKEN_A)) = [OResp [] SW_BAD_STATE] /\
  cleared (fst (step toy (final OPEN) (sign_cmd 0x11 TOKEN_A))) /\
  snd (step toy (final (OPEN ++ firstn 3 SIGN_OUTPUTS)) UiReject) = [OResp [] SW_DENY] /\
  cleared (fst (step toy (final (OPEN ++ firstn 3 SIGN_OUTPUTS)) UiReject)).
Proof. vm_compute. repeat split. Qed.

(** C38.  After a command of another kind was looked into, or one of its own failed, or
    the user refused, a session is over: a continuation is accepted only after a new start
    and its approval. *)
Theorem C38_over : forall E key tr1 o tr2 c st ins, env_ok E -> ins = INS_ATTEST \/ ins = INS_SIGN ->
  history E key (tr1 ++ o :: tr2 ++ [c]) st -> ends ins o -> continuation ins c <> None ->
  exists a start b sid, tr2 = a ++ start :: b /\ is_start ins start = true /\ session_id ins sid start b.
Proof. exact ended. Qed.
Print Assumptions C38_over.
(** A refused key request in the middle of the sample session. *)
Example C38_ex : playable (OPEN ++ [cmd_of INS_KEY 1 0 []; output_head 5 0 1 0 0]) = true /\
  map snd (skipn (length OPEN) (trace (OPEN ++ [cmd_of INS_KEY 1 0 []; output_head 5 0 1 0 0]))) =
    [[OResp [] SW_NOT_ENOUGH_DATA]; [OResp [] SW_BAD_STATE]] /\
  ends INS_SIGN (cmd_of INS_KEY 1 0 [], [OResp [] SW_NOT_ENOUGH_DATA]).
Proof.
  split; [vm_compute; reflexivity|]. split; [vm_compute; reflexivity|]. cbn. split; [reflexivity|]. split; [reflexivity|]. split; [|left; discriminate].
  intros (s & K & L). injection K as <-. cbn in L. repeat (destruct L as [L|L]; [discriminate L|]). exact L.
Qed.
