(** C57, C58: exactly which commands of an open signing or attestation session the device accepts. *)
From Verif Require Import Lib Env UiFlow App SpecTrace SpecTx SpecApdu SpecAmounts SpecScreen SpecSign SpecRules SpecAccept SpecAttest Toy RulesToy
  AcceptProofs AttestAccept OpenAccept AcceptToy.

(** C57.  A signing command other than a start is accepted if and only if nothing is asked
    on the screen, its id is that of an open, approved session, and the transaction
    described so far admits it. *)
Theorem C57_accepts : forall E key tr st sid sub data r, env_ok E -> history E key tr st ->
  event_ok (Apdu CLA INS_SIGN sub sid data r) -> sub <> 1 ->
  (accepted (snd (step E st (Apdu CLA INS_SIGN sub sid data r))) = true <->
   on_screen tr = None /\ exists start body, signing sid tr start body /\ admissible E key (description body) sub data).
Proof. exact accepts_sign_command. Qed.
Print Assumptions C57_accepts.

(** The sample session after its inputs: the hypotheses hold; a new output is admissible
    and accepted, an output with 21 tokens, a data input and a further frame are not. *)
Definition READY : list event := ATTEST_FRAME ++ SIGN_START ++ SIGN_INPUTS.
Definition new_output (ntokens : N) : bytes := be_bytes 8 5 ++ be_bytes 4 36 ++ be_bytes 4 501 ++ be_bytes 1 ntokens ++ be_bytes 4 0.
Definition outs_after (evs : list event) (e : event) : list output := snd (last (trace (evs ++ [e])) NO_OBS).
Example C57_ex : playable READY = true /\ on_screen (trace READY) = None /\
  (exists start body, signing 7 (trace READY) start body /\ body_of READY = body) /\
  admissible toy TOY_KEY (tx_of READY) 0x15 (new_output 20) /\ ~ admissible toy TOY_KEY (tx_of READY) 0x15 (new_output 21) /\
  outs_after READY (sign_cmd 0x15 (new_output 20)) = [OResp [] SW_OK] /\
  outs_after READY (sign_cmd 0x15 (new_output 21)) = [OResp [] SW_TOO_MANY_TOKENS] /\
  outs_after READY (sign_cmd 0x14 (repeat 1 32)) = [OResp [] SW_BAD_STATE] /\
  outs_after READY (sign_cmd 0x12 (FRAME ++ be_bytes 4 0)) = [OResp [] SW_BAD_STATE].
Proof.
  split; [vm_compute; reflexivity|]. split; [vm_compute; reflexivity|].
  split. { apply (sample_signing READY (new_output 20)); vm_compute; reflexivity. }
  split.
  { right. exists (mk_sh 1 0 1 3). split; [vm_compute; reflexivity|]. split.
    { split; [vm_compute; reflexivity|]. apply Forall_forall. intros i Hi. revert i Hi. apply Forall_forall. vm_compute. constructor; [reflexivity|constructor]. }
    split; [vm_compute; reflexivity|]. split; [vm_compute; discriminate|]. split; [vm_compute; reflexivity|].
    split; [vm_compute; discriminate|]. split; vm_compute; discriminate. }
  split.
  { intros [[K _]|(h & K & _ & _ & _ & _ & _ & L & _)]; [discriminate K|]. revert L. vm_compute. congruence. }
  split; [vm_compute; reflexivity|]. split; [vm_compute; reflexivity|]. split; vm_compute; reflexivity.
Qed.

(** C58.  An attestation command other than a start is accepted if and only if nothing is
    asked on the screen, its id is that of an open session, and the box described so far
    admits it. *)
Theorem C58_accepts : forall E key tr st sid sub data r, env_ok E -> history E key tr st ->
  event_ok (Apdu CLA INS_ATTEST sub sid data r) -> sub <> 1 ->
  (accepted (snd (step E st (Apdu CLA INS_ATTEST sub sid data r))) = true <->
   on_screen tr = None /\ exists start body, attesting sid tr start body /\ admissible_box (streamed_box start body) sub data).
Proof. exact accepts_attest_command. Qed.
Print Assumptions C58_accepts.

(** A box with two tokens after its script: the hypotheses hold; a token is admissible and
    accepted, the same token twice, registers and a frame request are not. *)
Definition HALF_BOX : list event := [attest_start 1 (repeat 1 32) 2 1000000000 36 500 2 0 []; UiApprove; cmd_of INS_ATTEST 2 7 BOX_TREE].
Definition token_entry (id : bytes) : bytes := id ++ be_bytes 8 1000.
Example C58_ex : playable HALF_BOX = true /\ on_screen (trace HALF_BOX) = None /\
  (exists start body, attesting 7 (trace HALF_BOX) start body /\ box_of HALF_BOX = streamed_box start body) /\
  admissible_box (box_of HALF_BOX) 3 (token_entry TOKEN_A ++ token_entry TOKEN_B) /\
  ~ admissible_box (box_of HALF_BOX) 3 (token_entry TOKEN_A ++ token_entry TOKEN_A) /\
  outs_after HALF_BOX (cmd_of INS_ATTEST 3 7 (token_entry TOKEN_A ++ token_entry TOKEN_B)) = [OResp [1] SW_OK] /\
  outs_after HALF_BOX (cmd_of INS_ATTEST 3 7 (token_entry TOKEN_A ++ token_entry TOKEN_A)) = [OResp [] SW_BAD_TOKEN_ID] /\
  outs_after HALF_BOX (cmd_of INS_ATTEST 4 7 [1]) = [OResp [] SW_BAD_STATE] /\
  outs_after HALF_BOX (cmd_of INS_ATTEST 5 7 [0]) = [OResp [] SW_BAD_STATE].
Proof.
  split; [vm_compute; reflexivity|]. split; [vm_compute; reflexivity|].
  split. { apply (sample_attesting HALF_BOX 3 (token_entry TOKEN_A) [OResp [] SW_OK]); [vm_compute; reflexivity|vm_compute; reflexivity|discriminate|reflexivity|vm_compute; reflexivity]. }
  split.
  { split; [exists BOX_TREE; split; vm_compute; reflexivity|]. split; [vm_compute; reflexivity|]. split; [vm_compute; reflexivity|].
    split; [vm_compute; discriminate|]. vm_compute. constructor; [|constructor; [|constructor]]; cbn [In]; [|tauto].
    intros [K|[]]. discriminate K. }
  split.
  { intros (_ & _ & _ & _ & K). vm_compute in K. inversion K as [|? ? K1 _]. apply K1. left. reflexivity. }
  split; [vm_compute; reflexivity|]. split; [vm_compute; reflexivity|]. split; vm_compute; reflexivity.
Qed.
