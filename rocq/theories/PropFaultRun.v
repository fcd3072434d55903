(** C79: the device operated by its buttons while calls into the operating system fail. *)
From Coq Require Import String.
From Verif Require Import Lib Base Env UiFlow P2pkOp App SpecTx SpecTrace SpecScreen SpecSign Toy Fault LowApp SpecFault Buttons SpecButtons ButtonToy FaultButtons SpecFaultRun FaultToy ButtonFault.

(** C79.  Whatever is sent and pressed, and whichever calls fail: at every moment the display
    shows what it shows on a device in which no call fails, operated by the actions that
    stand for those made (SpecFaultRun.v).  So an action with a failing call has its usual
    effect, or is answered by an error code and has the effect of a refused command, or of
    Reject. *)
Theorem C79_display : forall E U key l d, env_ok E -> foperated E U key l d -> exists ls, Forall2 stands l ls /\
  forall l1 l2, l = l1 ++ l2 -> exists d1 d1', foperated E U key l1 d1 /\ operated E U key (concat (firstn (length l1) ls)) d1' /\ displayed d1 = displayed d1'.
Proof. exact run_stands. Qed.
Print Assumptions C79_display.

(** A signature is given only for both buttons on Approve, with the final question of a
    signing session before the user; and Reject was displayed before, or every card was, with
    all its parts. *)
Theorem C79_signature : forall E U key l F a os d o sig, env_ok E -> foperated E U key (l ++ [(F, (a, os))]) d -> In o os -> signature o = Some sig ->
  a = Press BOTH /\ exists d0 l1 l2 f pages, foperated E U key l d0 /\ displayed d0 = Some (C_APPROVE, O) /\ l = l1 ++ l2 /\ put (map snd l1) U_STX_TX f pages /\ still (map snd l2) /\
    (fseen E U key l1 l2 C_REJECT O \/
     forall oc, In oc (cards f pages) -> exists c, oc = Some c /\ (c = C_REJECT \/ forall p, (p <= extra U c)%nat -> fseen E U key l1 l2 c p)).
Proof. exact signed_by_hand. Qed.
Print Assumptions C79_signature.

(** Every answer to a press is a decision on the question before the user (SpecButtons.v), or
    a call failed in it and the answer is one of the error codes for that. *)
Theorem C79_answers : forall E U key l F b os d', env_ok E -> foperated E U key (l ++ [(F, (Press b, os))]) d' -> answered (Press b, os) = true ->
  exists d l1 l2 k f pages, foperated E U key l d /\ l = l1 ++ l2 /\ put (map snd l1) k f pages /\ still (map snd l2) /\
    (decision k pages d b os \/ (call_failed F /\ exists e s, fault_status s /\ os = [(e, [OResp [] s])])).
Proof. exact answered_by_hand. Qed.
Print Assumptions C79_answers.

(** Samples: a whole signing session in which the last step of the signature fails after
    Approve; one in which a page of an output cannot be computed while turning to it, and the
    session ends at the menu; and one in which calls fail at first, the host starts again,
    and the signature comes out. *)
Definition AT_APPROVE : list (faults * action) := map (pair FINE) (TO_CONFIRM ++ [Press LEFT; Press LEFT]).
Definition AT_OUTPUT : list (faults * action) := map (pair FINE) (firstn 16 TO_CONFIRM).
Definition last_answer (l : list fdeed) : option (N * sw) :=
  match rev l with (_, (_, [(_, [OResp b s])])) :: _ => Some (blen b, s) | _ => None end.
Example C79_failed_ex : let acts := AT_APPROVE ++ [(FINISH_FAILS, Press BOTH)] in
  foperated toy toy_ux TOY_KEY (fdeeds acts) (fafter acts) /\ displayed (fafter AT_APPROVE) = Some (C_APPROVE, O) /\
  last_answer (fdeeds acts) = Some (0, SW_SCHNORR_SIGNING_FAILED) /\ displayed (fafter acts) = Some (C_INFO (str "Ergo is ready"), O).
Proof.
  split; [apply fdeeds_operated, Forall_app; split; [apply mild_with; left; reflexivity|constructor; [right; right; reflexivity|constructor]]|].
  vm_compute. auto.
Qed.
Example C79_page_ex : let acts := AT_OUTPUT ++ [(HASHES_FAIL, Press RIGHT)] in
  foperated toy toy_ux TOY_KEY (fdeeds acts) (fafter acts) /\
  last_answer (fdeeds acts) = Some (0, SW_ADDRESS_GENERATION_FAILED) /\ displayed (fafter acts) = Some (C_INFO (str "Ergo is ready"), O).
Proof.
  split; [apply fdeeds_operated, Forall_app; split; [apply mild_with; left; reflexivity|constructor; [right; left; reflexivity|constructor]]|].
  vm_compute. auto.
Qed.
Example C79_signature_ex : let acts := map (pair HASHES_FAIL) (firstn 4 TO_CONFIRM) ++ AT_APPROVE ++ [(FINE, Press BOTH)] in
  foperated toy toy_ux TOY_KEY (fdeeds acts) (fafter acts) /\ last_answer (fdeeds acts) = Some (56, SW_OK).
Proof.
  split; [|vm_compute; reflexivity]. apply fdeeds_operated, Forall_app. split; [apply mild_with; right; left; reflexivity|].
  apply Forall_app. split; [apply mild_with; left; reflexivity|constructor; [left; reflexivity|constructor]].
Qed.
Example C79_calls_ex : call_failed HASHES_FAIL /\ call_failed FINISH_FAILS /\ ~ call_failed FINE.
Proof.
  split; [apply (cf_hash HASHES_FAIL []); reflexivity|]. split; [apply cf_finish; reflexivity|]. apply FaultProofs.quiet_calls.
Qed.
