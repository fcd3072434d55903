(** C82: cx_hmac_sha256, whose result the application ignores, may fail as well. *)
From Coq Require Import String.
From Verif Require Import Lib Base Env UiFlow P2pkOp App SpecApdu SpecTx SpecTrace SpecScreen SpecSign Toy Fault LowApp SpecFault Buttons SpecButtons ButtonToy FaultButtons SpecFaultRun SpecTags FaultToy TagToy TagProofs TagButtons.

(** C82.  Whatever is sent, approved and rejected, whichever calls fail, cx_hmac_sha256
    among them: the device got into the state it is in through a history in which
    cx_hmac_sha256 did not fail, with the same commands and answers but for the tags of
    frames, and for the frames refused (SpecTags.v). *)
Theorem C82_transfer : forall E key tr st, env_ok E -> hhistory E key tr st -> exists tr', Forall2 tagged_right tr tr' /\ fhistory E key tr' st.
Proof. exact history_retagged. Qed.
Print Assumptions C82_transfer.

(** So it is for the device operated by its buttons: at every moment it is, with its display,
    the same device. *)
Theorem C82_run : forall E U key l d, env_ok E -> hoperated E U key l d -> exists l', Forall2 handed_right l l' /\ foperated E U key l' d /\
  forall l1 l2, l = l1 ++ l2 -> exists d1, hoperated E U key l1 d1 /\ foperated E U key (firstn (length l1) l') d1.
Proof. exact run_retagged. Qed.
Print Assumptions C82_run.

(** A signature is given only for both buttons on Approve, with the final question of a
    signing session before the user; and Reject was displayed before, or every card was, with
    all its parts. *)
Theorem C82_signature : forall E U key l F a os d o sig, env_ok E -> hoperated E U key (l ++ [(F, (a, os))]) d -> In o os -> signature o = Some sig ->
  a = Press BOTH /\ exists d0 l1 l2 f pages, hoperated E U key l d0 /\ displayed d0 = Some (C_APPROVE, O) /\ l = l1 ++ l2 /\ put (map snd l1) U_STX_TX f pages /\ still (map snd l2) /\
    (hseen E U key l1 l2 C_REJECT O \/
     forall oc, In oc (cards f pages) -> exists c, oc = Some c /\ (c = C_REJECT \/ forall p, (p <= extra U c)%nat -> hseen E U key l1 l2 c p)).
Proof. exact signed_untagged. Qed.
Print Assumptions C82_signature.

(** Every answer to a press is a decision on the question before the user (SpecButtons.v), or
    another call failed in it and the answer is one of the error codes for that. *)
Theorem C82_answers : forall E U key l F b os d', env_ok E -> hoperated E U key (l ++ [(F, (Press b, os))]) d' -> answered (Press b, os) = true ->
  exists d l1 l2 k f pages, hoperated E U key l d /\ l = l1 ++ l2 /\ put (map snd l1) k f pages /\ still (map snd l2) /\
    (decision k pages d b os \/ (call_failed F /\ exists e s, fault_status s /\ os = [(e, [OResp [] s])])).
Proof. exact answered_untagged. Qed.
Print Assumptions C82_answers.

(** What is signed is the transaction described to the device in the session, whatever the
    tags of its frames; the user approved it, with the question for it on the screen. *)
Theorem C82_message : forall E key tr F o st sig, env_ok E -> hhistory E key (tr ++ [(F, o)]) st -> signature o = Some sig ->
  fst o = UiApprove /\
  exists tr1 tr2 start body sid, Forall2 tagged_right tr tr1 /\ Forall2 shadow tr1 tr2 /\ session_of INS_SIGN tr2 = Some (start, body) /\
    approved_in INS_SIGN sid body /\ (exists q f pages, on_screen tr2 = Some (q, U_STX_TX, f, pages)) /\
    signed_message E start (streamed_bytes E (description body)) sig.
Proof. exact message_untagged. Qed.
Print Assumptions C82_message.

(** Samples: with cx_hmac_sha256 failing all the time and leaving zeros, a frame is given
    with zeros for its tag; it is accepted, and the transaction is signed.  The device in
    which it does not fail refuses the frame.  And the frame that one gives is refused. *)
Example C82_transfer_ex : let tr := htrace SIGN_ZERO in hhistory toy TOY_KEY tr (hfinal SIGN_ZERO) /\ length tr = 21%nat /\
  map (fun o => match snd (snd o) with [OResp b SW_OK] => blen b | [OShow _ _ _] => 1000 | _ => 2000 end) tr =
  [1000; 1; 0; 1; 99; 1000; 1; 0; 0; 0; 0; 0; 1000; 0; 0; 0; 0; 0; 0; 1000; 56].
Proof. split; [apply htrace_history|]. vm_compute. auto. Qed.
Example C82_frame_ex :
  let tr := htrace (ATTEST_FRAME ++ SIGN_START ++ SIGN_INPUTS) in
  hhistory toy TOY_KEY tr (hfinal (ATTEST_FRAME ++ SIGN_START ++ SIGN_INPUTS)) /\
  map (fun o => snd (snd o)) (skipn 4 (firstn 5 tr)) = [[OResp ZERO_FRAME SW_OK]] /\ ZERO_FRAME <> FRAME /\
  map (fun o => snd (snd o)) (skipn 9 tr) = [[OResp [] SW_BAD_FRAME_SIGNATURE]].
Proof. split; [apply htrace_history|]. vm_compute. split; [reflexivity|]. split; [discriminate|reflexivity]. Qed.
Example C82_message_ex : exists tr F o st sig, hhistory toy TOY_KEY (tr ++ [(F, o)]) st /\ hmac_failed F /\ signature o = Some sig.
Proof.
  pose proof (htrace_history SIGN_ZERO) as H. assert (L : exists tr o sig, htrace SIGN_ZERO = tr ++ [(TAGS_FAIL, o)] /\ signature o = Some sig).
  { exists (removelast (htrace SIGN_ZERO)), (snd (last (htrace SIGN_ZERO) (TAGS_FAIL, (UiApprove, [])))),
      (match snd (snd (last (htrace SIGN_ZERO) (TAGS_FAIL, (UiApprove, [])))) with [OResp b _] => b | _ => [] end). split; vm_compute; reflexivity. }
  destruct L as (tr & o & sig & L & S). rewrite L in H. exists tr, TAGS_FAIL, o, (hfinal SIGN_ZERO), sig. split; [exact H|]. split; [apply tags_fail_ok|exact S].
Qed.
Definition BY_HAND : list action := by_hand (removelast SIGN_ZERO) ++ [Press LEFT; Press LEFT].
Example C82_run_ex : hoperated toy toy_ux TOY_KEY (hdeeds (BY_HAND ++ [Press BOTH])) (hafter (BY_HAND ++ [Press BOTH])) /\
  displayed (hafter BY_HAND) = Some (C_APPROVE, O) /\
  match rev (hdeeds (BY_HAND ++ [Press BOTH])) with (_, (Press BOTH, [(_, [OResp b SW_OK])])) :: _ => blen b = 56 | _ => False end.
Proof. split; [apply hdeeds_operated|]. vm_compute. auto. Qed.
Example C82_calls_ex : stack_ok TAGS_FAIL /\ leaves_bytes TAGS_FAIL /\ hmac_failed TAGS_FAIL /\ ~ call_failed TAGS_FAIL.
Proof. exact tags_fail_ok. Qed.
