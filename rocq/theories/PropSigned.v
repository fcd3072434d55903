(** C13 (transactions), C14, C15, C44-C46: the bytes under a signature. *)
From Verif Require Import Lib Env Schnorr UiFlow P2pkOp App SpecVlq SpecTrace SpecTx SpecApdu SpecScreen SpecSign Toy SignedProofs.

(** C13.  When the final screen is up, the transaction streamed has the declared numbers
    of inputs, data inputs and distinct tokens, all inputs complete, and the declared
    number of complete outputs. *)
Theorem C13_transaction : forall E key tr st q f pages, env_ok E -> history E key tr st -> on_screen tr = Some (q, U_STX_TX, f, pages) ->
  exists start body, session_of INS_SIGN tr = Some (start, body) /\ counts_met (description body).
Proof. exact final_counts. Qed.
Print Assumptions C13_transaction.
(** The sample session with the third output missing: the final screen is refused. *)
Definition BEFORE_FINAL : list event := ATTEST_FRAME ++ SIGN_START ++ SIGN_INPUTS ++ SIGN_OUTPUTS.
Example C13_ex : playable (BEFORE_FINAL ++ SIGN_CONFIRM) = true /\
  option_map (fun q => snd (fst (fst q))) (on_screen (trace (BEFORE_FINAL ++ SIGN_CONFIRM))) = Some U_STX_TX /\
  map snd (skipn (length BEFORE_FINAL - 3) (trace (firstn (length BEFORE_FINAL - 3) BEFORE_FINAL ++ SIGN_CONFIRM))) = [[OResp [] SW_BAD_STATE]].
Proof. vm_compute. auto. Qed.

(** C14.  The signature is the Schnorr signature, under the key of the session's path, of
    the bytes streamed; these are the bytes to sign of the transaction described, if no
    output was left incomplete. *)
Theorem C14_message : forall E key tr o st sig, env_ok E -> history E key (tr ++ [o]) st -> signature o = Some sig ->
  exists start body, session_of INS_SIGN tr = Some (start, body) /\
    signed_message E start (streamed_bytes E (description body)) sig /\
    (Forall (fun o => output_complete o = true) (sx_outputs (description body)) ->
     streamed_bytes E (description body) = bytes_to_sign E (description body)).
Proof. exact signed_bytes. Qed.
Print Assumptions C14_message.
(** The sample transaction: three complete outputs. *)
Definition SAMPLE : s_tx :=
  match session_of INS_SIGN (trace SIGN_ALL) with Some (_, body) => description body | None => s_empty end.
Example C14_ex : map (fun o => (output_complete o, so_value o)) (sx_outputs SAMPLE) = [(true, 600000000); (true, 1000000); (true, 399000000)] /\
  length (bytes_to_sign toy SAMPLE) = 278%nat.
Proof. vm_compute. auto. Qed.

(** C15.  The outputs opened contribute what was streamed of them; the completed ones are as
    many as declared.  If no more than these were opened, all are complete, and the message
    is the bytes to sign of the transaction described. *)
Theorem C15_outputs : forall E key tr o st sig, env_ok E -> history E key (tr ++ [o]) st -> signature o = Some sig ->
  exists start body h, session_of INS_SIGN tr = Some (start, body) /\ sx_head (description body) = Some h /\ counts_met (description body) /\
    signed_message E start (streamed_bytes E (description body)) sig /\
    (blen (sx_outputs (description body)) = sh_outputs h <-> Forall (fun o => output_complete o = true) (sx_outputs (description body))) /\
    (blen (sx_outputs (description body)) = sh_outputs h -> signed_message E start (bytes_to_sign E (description body)) sig).
Proof. exact signed_outputs. Qed.
Print Assumptions C15_outputs.
(** Not so in general.  One output is declared.  The host opens an output, sends the
    first 255 bytes of a script of 300 (EVIL_HEAD and EVIL_REGS in Toy.v), and opens the next one, which is completed, shown
    and approved.  The signed bytes are those of a transaction with a single output that
    was never shown (STOLEN): the 255 bytes hold another script, and the beginning of a register
    that swallows the bytes of the output the user has seen. *)
Theorem C15_refuted : exists E key tr o st sig start body d, env_ok E /\ history E key (tr ++ [o]) st /\ signature o = Some sig /\
  session_of INS_SIGN tr = Some (start, body) /\ signed_message E start (bytes_to_sign E d) sig /\
  counts_met d /\ sx_head d = sx_head (description body) /\ sx_inputs d = sx_inputs (description body) /\
  sx_outputs d = [STOLEN] /\
  forall x, In x (sx_outputs (description body)) -> output_complete x = true -> so_dest x = Some (SD_TREE OTHER_TREE).
Proof. exact theft. Qed.
Print Assumptions C15_refuted.
(** All the completed outputs go to OTHER_TREE, none to the script the funds go to. *)
Example C15_ex : so_dest STOLEN = Some (SD_TREE EVIL_TREE) /\ EVIL_TREE <> OTHER_TREE /\ output_complete STOLEN = true.
Proof. split; [reflexivity|]. split; [discriminate|vm_compute; reflexivity]. Qed.

(** C44.  A signature verifies: for every group in which the device's multiplication is
    multiplication of a generator of the given order, recomputing the commitment from the
    signature and hashing gives the challenge of the signature. *)
Theorem C44_verifies : forall E G (zero gen : G) add opp enc key tr o st sig, env_ok E -> curve E zero gen add opp enc ->
  history E key (tr ++ [o]) st -> signature o = Some sig ->
  exists start body secret, session_of INS_SIGN tr = Some (start, body) /\ session_secret E start secret /\
    verifies E zero gen add opp enc (N.iter (be_value secret) (add gen) zero) (streamed_bytes E (description body)) sig.
Proof. exact signature_verifies. Qed.
Print Assumptions C44_verifies.
(** For every secret, nonce and message. *)
Theorem C44_equation : forall E G (zero gen : G) add opp enc secret nonce msg sig, env_ok E -> curve E zero gen add opp enc ->
  schnorr E secret nonce msg sig -> verifies E zero gen add opp enc (N.iter (be_value secret) (add gen) zero) msg sig.
Proof. exact equation_verifies. Qed.
Print Assumptions C44_equation.
(** The integers modulo the order, with the multiplication of the toy environment. *)
Example C44_ex : curve toy (zn_of 0) (zn_of 1) zn_add zn_opp zn_enc /\ length (answer SIGN_ALL) = 56%nat.
Proof. split; [exact toy_curve|vm_compute; reflexivity]. Qed.

(** C45.  The nonce is one of those drawn while the start command was handled, not zero
    and not above the order; the signature has 56 bytes. *)
Theorem C45_nonce : forall E key tr o st sig, env_ok E -> history E key (tr ++ [o]) st -> signature o = Some sig ->
  exists start body secret nonce, session_of INS_SIGN tr = Some (start, body) /\
    session_secret E start secret /\ In nonce (session_nonces start) /\ schnorr E secret nonce (streamed_bytes E (description body)) sig /\
    length sig = 56%nat /\ length nonce = 32%nat /\ 0 < be_value nonce <= GROUP_ORDER /\ 0 < be_value secret <= GROUP_ORDER.
Proof. exact nonce_range. Qed.
Print Assumptions C45_nonce.
(** Two signatures have different starts, so nonces drawn separately. *)
Theorem C45_once : forall E key tr1 o1 tr2 o2 st sig1 sig2, env_ok E ->
  history E key (tr1 ++ o1 :: tr2 ++ [o2]) st -> signature o1 = Some sig1 -> signature o2 = Some sig2 ->
  exists pre1 start1 body1 secret1 nonce1 pre2 start2 body2 secret2 nonce2,
    tr1 = pre1 ++ start1 :: body1 /\ tr2 = pre2 ++ start2 :: body2 /\
    In nonce1 (session_nonces start1) /\ schnorr E secret1 nonce1 (streamed_bytes E (description body1)) sig1 /\
    In nonce2 (session_nonces start2) /\ schnorr E secret2 nonce2 (streamed_bytes E (description body2)) sig2.
Proof. exact nonces_apart. Qed.
Print Assumptions C45_once.
(** Approving the final screen clears the context with the nonce, and answers with a
    signature or, if the challenge is zero, with an error. *)
Theorem C45_wiped : forall E key tr st q f pages, env_ok E -> history E key tr st -> on_screen tr = Some (q, U_STX_TX, f, pages) ->
  exists st' outs, step E st UiApprove = (st', outs) /\ cleared st' /\
    ((exists sig, outs = [OResp sig SW_OK] /\ signature (UiApprove, outs) = Some sig) \/ outs = [OResp [] SW_SCHNORR_SIGNING_FAILED]).
Proof. exact final_wipes. Qed.
Print Assumptions C45_wiped.
Example C45_ex : option_map (fun q => snd (fst (fst q))) (on_screen (trace (BEFORE_FINAL ++ SIGN_CONFIRM))) = Some U_STX_TX /\
  cleared (final SIGN_ALL) /\ blen (answer SIGN_ALL) = 56.
Proof. split; [vm_compute; reflexivity|]. split; [split; vm_compute; reflexivity|vm_compute; reflexivity]. Qed.

(** C46.  The check of the code lets the group order itself pass; strictly below holds if
    multiplication by the order fails, as it does for a library without an encoding of
    the point at infinity. *)
Theorem C46_check : forall k, scalar_rejected k = false <-> 0 < be_value k <= GROUP_ORDER.
Proof. exact scalar_range. Qed.
Print Assumptions C46_check.
Theorem C46_strict_refuted : exists k, length k = 32%nat /\ scalar_rejected k = false /\ ~ be_value k < GROUP_ORDER.
Proof. exact order_passes. Qed.
Print Assumptions C46_strict_refuted.
Theorem C46_signature : forall E key tr o st sig, env_ok E -> (forall k, be_value k = GROUP_ORDER -> e_mulG E k = None) ->
  history E key (tr ++ [o]) st -> signature o = Some sig ->
  exists start body secret nonce, session_of INS_SIGN tr = Some (start, body) /\
    session_secret E start secret /\ In nonce (session_nonces start) /\ schnorr E secret nonce (streamed_bytes E (description body)) sig /\
    0 < be_value nonce < GROUP_ORDER /\ 0 < be_value secret < GROUP_ORDER.
Proof. exact nonce_strict. Qed.
Print Assumptions C46_signature.
Example C46_ex : forall k, be_value k = GROUP_ORDER -> e_mulG toy k = None.
Proof. exact toy_infinity. Qed.
