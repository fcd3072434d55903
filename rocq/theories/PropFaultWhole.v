(** C80: the whole device, at the cable and under the finger, while calls into the operating
    system fail. *)
From Coq Require Import String.
From Verif Require Import Lib Env UiFlow P2pkOp App SpecTx SpecTrace SpecApdu SpecScreen SpecSign SpecStart Toy ReadApp SpecRaw Wire SpecWire Restart Fault LowApp SpecFault
  Buttons SpecButtons ButtonProofs ButtonToy Whole SpecWhole WholeToy SpecHost SpecWallet PropHost WalletToy
  FaultButtons FaultToy FaultWhole SpecFaultWhole FaultWholeProofs FaultWholeToy.

(** Whatever memory, page buffers and I/O buffer the application starts on, and whichever
    calls fail: packets and display are those of a run of C74 in which no call fails, moment by
    moment, except where a failing call is answered with its error code; and there the other
    run refuses the packet, or the user goes to Reject. *)
Theorem C80_run : forall E U mem page io key, env_ok E -> blen io = 260 -> forall tr w, fgoes_on E U (power_on mem page io key) tr w ->
  exists trs w', Forall2 replays tr trs /\ goes_on E U (power_on mem page io key) (concat trs) w'.
Proof. exact replayed. Qed.
Print Assumptions C80_run.

(** Where no call fails, the device does what the device of C74 does, and reads its commands
    from the I/O buffer as that one. *)
Theorem C80_none : forall E U mem page io key tr w F a, env_ok E -> blen io = 260 -> fgoes_on E U (power_on mem page io key) tr w -> stack_ok F -> hmac_works F -> act_ok a ->
  ~ call_failed F -> fwhole_step E F U w a = whole_step E U w a.
Proof. exact none_fails. Qed.
Print Assumptions C80_none.

(** A packet with a signature leaves the device only when both buttons are pressed with
    Approve on the display.  It is the answer to the final question of a signing session,
    which a run without failures gives as well (so C74_cost says what it can cost); and since
    the command that put the question was received, no press was answered, and the user had
    all of it displayed or went by Reject. *)
Theorem C80_signature : forall E U mem page io key a F m w p, env_ok E -> blen io = 260 -> fgoes_on E U (power_on mem page io key) (a ++ [(F, m)]) w ->
  In p (mo_sent m) -> length p = 58%nat -> skipn 56 p = [0x90; 0] ->
  mo_act m = Presses BOTH /\ shown_last (map snd a) (Some (C_APPROVE, 0%nat)) /\
  exists trs w' l d q q' f pages, Forall2 replays a trs /\ goes_on E U (power_on mem page io key) (concat trs ++ [m]) w' /\
    operated E U key l d /\ tells_of E U key (concat trs) l /\ on_screen (happened l) = Some (q, U_STX_TX, f, pages) /\ same_event q' q /\ read_all U (map snd a) q' f pages.
Proof. exact signed_at_cable. Qed.
Print Assumptions C80_signature.

(** Once no call fails any more, the device still serves any wallet: with at most a few presses
    to leave an open question, and a conversation after them, the transaction planned gets
    signed, unless the buttons are dead. *)
Theorem C80_serves : forall E U mem page io key tr w p r, env_ok E -> blen io = 260 -> fgoes_on E U (power_on mem page io key) tr w -> ~ dead E U (wh_dev w) ->
  tx_fits E (pl_tx p) -> act_ok (Arrives (opening p) r) -> sign_request_ok E (pl_p2 p) (pl_start p) r ->
  exists tr1 tr2 w2 s, goes_on E U w (tr1 ++ tr2) w2 /\ Forall (fun m => exists b, mo_act m = Presses b) tr1 /\
    talks E p (map snd tr ++ tr1) tr2 s false /\ good_end E p tr2 s.
Proof. exact serves_after. Qed.
Print Assumptions C80_serves.

(** Failing calls never make the buttons dead: they are dead only where the user left the
    application, or pressed both buttons on the path of a key or address request. *)
Theorem C80_dead : forall E U mem page io key tr w, env_ok E -> blen io = 260 -> fgoes_on E U (power_on mem page io key) tr w -> dead E U (wh_dev w) ->
  displayed (wh_dev w) = None \/
  exists trs l1 l2 k f pages, Forall2 replays tr trs /\ tells_of E U key (concat trs) (l1 ++ l2) /\ put l1 k f pages /\ still l2 /\ (k = U_EPK \/ k = U_DA) /\ In BOTH (pressed l2) /\
    exists t x p, displayed (wh_dev w) = Some (C_TEXT t x, p).
Proof. exact stuck_after. Qed.
Print Assumptions C80_dead.

(** Samples, on memory left by an earlier run: hashes fail in a first session, then a whole
    session up to Approve; there the last step of the signature fails, or does not. *)
Notation TO_APPROVE := (map (pair HASHES_FAIL) (firstn 4 TO_CONFIRM) ++ map (pair FINE) (TO_CONFIRM ++ [Press LEFT; Press LEFT])).
Notation FAILED := (flived SECOND_POWER (TO_APPROVE ++ [(FINISH_FAILS, Press BOTH)])).
Notation WENT_WELL := (flived SECOND_POWER (TO_APPROVE ++ [(FINE, Press BOTH)])).
Notation STUCK := (flived SECOND_POWER (map (pair HASHES_FAIL) (TO_KEY ++ [Press RIGHT; Press RIGHT; Press BOTH]))).
Lemma approve_mild : Forall (fun x => mild (fst x)) TO_APPROVE.
Proof. apply Forall_app. split; apply mild_with; [right; left; reflexivity|left; reflexivity]. Qed.
Definition last_sent (l : list (faults * moment)) : list (nat * bytes) :=
  match rev l with (_, m) :: _ => map (fun p => (length p, skipn (length p - 2) p)) (mo_sent m) | [] => [] end.
Example C80_failed_ex : fgoes_on toy toy_ux SECOND_POWER (fst FAILED) (snd FAILED) /\ length (fst FAILED) = 32%nat /\
  last_sent (fst FAILED) = [(2%nat, [0xE0; 0x17])] /\ displayed (wh_dev (snd FAILED)) = Some (C_INFO (str "Ergo is ready"), O) /\
  ~ dead toy toy_ux (wh_dev (snd FAILED)) /\
  tx_fits toy (pl_tx PLAN) /\ act_ok (Arrives (opening PLAN) RND) /\ sign_request_ok toy (pl_p2 PLAN) (pl_start PLAN) RND.
Proof.
  split; [apply flived_goes, Forall_app; split; [exact approve_mild|constructor; [right; right; reflexivity|constructor]]|].
  split; [vm_compute; reflexivity|]. split; [vm_compute; reflexivity|]. split; [vm_compute; reflexivity|].
  split; [intros D; specialize (D RIGHT); apply (f_equal (fun x => dv_at (fst x))) in D; vm_compute in D; discriminate D|].
  split; [exact (proj1 (proj2 (proj2 C61_ex)))|].
  split; [split; [vm_compute; reflexivity|]; split; [vm_compute; discriminate|]; split; repeat constructor|]. exact plan_request.
Qed.
Example C80_signature_ex : fgoes_on toy toy_ux SECOND_POWER (fst WENT_WELL) (snd WENT_WELL) /\ last_sent (fst WENT_WELL) = [(58%nat, [0x90; 0])].
Proof.
  split; [apply flived_goes, Forall_app; split; [exact approve_mild|constructor; [left; reflexivity|constructor]]|]. vm_compute. reflexivity.
Qed.
Example C80_dead_ex : fgoes_on toy toy_ux SECOND_POWER (fst STUCK) (snd STUCK) /\ dead toy toy_ux (wh_dev (snd STUCK)) /\ displayed (wh_dev (snd STUCK)) <> None.
Proof.
  split; [apply flived_goes, mild_with; right; left; reflexivity|]. split; [apply (dead_place _ _ _ 1%nat 1%nat); left; vm_compute; reflexivity|]. vm_compute. discriminate.
Qed.
Example C80_none_ex : stack_ok FINE /\ hmac_works FINE /\ ~ call_failed FINE /\ (stack_ok HASHES_FAIL /\ call_failed HASHES_FAIL).
Proof.
  split; [apply mild_ok; left; reflexivity|]. split; [apply mild_ok; left; reflexivity|]. split; [apply FaultProofs.quiet_calls|].
  split; [apply mild_ok; right; left; reflexivity|apply (cf_hash HASHES_FAIL []); reflexivity].
Qed.
