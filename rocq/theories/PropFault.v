(** C68: calls into the operating system that fail. *)
From Verif Require Import Lib Base Env UiFlow P2pkOp App Fault LowApp SpecTrace SpecTx SpecScreen SpecSign SpecFault Toy PropRules FaultProofs.

(** C68.  Whatever failed before: an event either has exactly the effect it has on a device
    in which nothing fails (up to draws of the random generator without use), or it is
    answered by one of the four error codes for it, without data, and the command in
    progress is gone.  The arrays written to on the way may hold anything. *)
Theorem C68_reported : forall E key tr st F e st' outs, env_ok E -> fhistory E key tr st -> stack_ok F -> hmac_works F -> event_ok e ->
  fstep E F st e = (st', outs) ->
  (exists e', same_event e e' /\ (e' = e \/ call_failed F) /\ step E st e' = (st', outs)) \/
  (call_failed F /\ (exists s, fault_status s /\ outs = [OResp [] s]) /\ dropped st st').
Proof. exact failure_reported. Qed.
Print Assumptions C68_reported.

(** With no failing call, local buffers make no difference: they are never too small and
    never read where nothing was written. *)
Theorem C68_buffers : forall E key tr st F e, env_ok E -> fhistory E key tr st -> stack_ok F -> hmac_works F -> event_ok e ->
  ~ call_failed F -> fstep E F st e = step E st e.
Proof. exact no_failure. Qed.
Print Assumptions C68_buffers.

(** Every history with failures is one without, in which the events that failed are
    replaced by refused ones; so what holds of all histories without holds here. *)
Theorem C68_transfer : forall E key tr st, env_ok E -> fhistory E key tr st ->
  exists tr', Forall2 shadow tr tr' /\ history E key tr' st.
Proof. exact shadow_history. Qed.
Print Assumptions C68_transfer.

(** For instance: a signature that comes out is the answer to an approval of the final
    screen, in an approved session, and of exactly the bytes streamed. *)
Theorem C68_signature : forall E key tr F o st sig, env_ok E -> fhistory E key (tr ++ [(F, o)]) st -> signature o = Some sig ->
  fst o = UiApprove /\
  exists tr' start body sid, Forall2 shadow tr tr' /\ session_of INS_SIGN tr' = Some (start, body) /\
    approved_in INS_SIGN sid body /\ (exists q f pages, on_screen tr' = Some (q, U_STX_TX, f, pages)) /\
    signed_message E start (streamed_bytes E (description body)) sig.
Proof. exact signed_despite. Qed.
Print Assumptions C68_signature.

(** A sample: the hash fails on the script of an attested box; the attestation is made
    again; at the start of the signing session the first round of the nonce loop fails;
    the signature comes out. *)
Definition FINE : faults := quiet_faults (fun _ _ => None).
Definition HASH_FAILS : faults :=
  mk_faults false (fun _ _ _ => Some [1; 2; 3]) (fun _ _ => false) (fun _ => false) false false (fun _ => None) false (fun _ _ => None) (f_stack FINE).
Definition ROUND_FAILS : faults :=
  mk_faults false (fun _ _ _ => None) (fun _ _ => false) (fun _ => false) false false
    (fun n => match n with O => Some false | _ => None end) false (fun _ _ => None) (f_stack FINE).
Notation WITH_FAILURES := (
  map (pair FINE) (firstn 2 ATTEST) ++ map (pair HASH_FAILS) (firstn 1 (skipn 2 ATTEST)) ++ map (pair FINE) ATTEST_FRAME ++
  map (pair ROUND_FAILS) SIGN_START ++ map (pair FINE) (SIGN_INPUTS ++ SIGN_OUTPUTS ++ SIGN_CONFIRM ++ [UiApprove])).
Definition fsummary (tr : list (faults * obs)) : list (N + sw) :=
  map (fun o => match snd (snd o) with [OResp b SW_OK] => inl (blen b) | [OResp _ s] => inr s | [OShow _ _ _] => inl 1000 | _ => inl 2000 end) tr.
Example C68_runs : option_map (fun x => fsummary (fst x)) (fplay toy (init TOY_KEY) WITH_FAILURES) =
  Some ([inl 1000; inl 1; inr SW_HASHER_ERROR] ++ map inl [1000; 1; 0; 1; 99; 1000; 1; 0; 0; 0; 0; 0; 1000; 0; 0; 0; 0; 0; 0; 1000; 56]).
Proof. vm_compute. reflexivity. Qed.
Example C68_ex : exists tr st, fhistory toy TOY_KEY tr st /\ length tr = 24%nat.
Proof.
  pose proof C68_runs as R. destruct (fplay toy (init TOY_KEY) WITH_FAILURES) as [[tr st]|] eqn:P; [|discriminate R].
  exists tr, st. split.
  - eapply fplay_fhistory; [|exact P]. repeat (apply Forall_app; split); apply Forall_forall; intros x H; apply in_map_iff in H as (e & <- & _);
      (split; [apply (quiet_stack (fun _ _ => None))|intros k l; reflexivity]).
  - apply (f_equal (fun o => match o with Some y => length y | None => 0%nat end)) in R. cbn [option_map fst] in R.
    unfold fsummary in R. rewrite map_length in R. exact R.
Qed.
Example C68_calls_ex : call_failed HASH_FAILS /\ call_failed ROUND_FAILS /\ ~ call_failed FINE.
Proof.
  split; [apply (cf_update HASH_FAILS S_MAIN [] [] [1; 2; 3]); reflexivity|].
  split; [apply (cf_round ROUND_FAILS 0 false); reflexivity|]. apply quiet_calls.
Qed.

(** Not so for HMAC-SHA256: its result is ignored.  If only it fails, leaving behind the
    right bytes, a frame with a changed value is accepted; and a frame is sent that the
    device would not accept later. *)
Definition BEFORE_FRAME : list event := ATTEST_FRAME ++ SIGN_START ++ firstn 2 SIGN_INPUTS.
Definition FORGED : event := sign_cmd 0x12 (TAMPERED ++ be_bytes 4 0).
Theorem C68_hmac_refuted : exists E key tr st F e, env_ok E /\ history E key tr st /\ stack_ok F /\ ~ call_failed F /\ event_ok e /\
  snd (step E st e) = [OResp [] SW_BAD_FRAME_SIGNATURE] /\ snd (fstep E F st e) = [OResp [] SW_OK].
Proof.
  exists toy, TOY_KEY, (trace BEFORE_FRAME), (final BEFORE_FRAME), (quiet_faults (fun _ _ => Some (skipn 83 TAMPERED))), FORGED.
  split; [exact toy_ok|]. split; [apply trace_history; vm_compute; reflexivity|]. split; [apply quiet_stack|]. split; [apply quiet_calls|].
  split; [apply event_okb_ok; vm_compute; reflexivity|]. split; vm_compute; reflexivity.
Qed.
Print Assumptions C68_hmac_refuted.
Theorem C68_hmac_frame_refuted : exists E key tr st F e data, env_ok E /\ history E key tr st /\ stack_ok F /\ ~ call_failed F /\ event_ok e /\
  snd (fstep E F st e) = [OResp data SW_OK] /\ snd (step E st e) <> [OResp data SW_OK].
Proof.
  exists toy, TOY_KEY, (trace ATTEST), (final ATTEST), (quiet_faults (fun _ _ => Some (repeat 0 32))), (cmd_of INS_ATTEST 5 7 [0]), (firstn 83 FRAME ++ repeat 0 16).
  split; [exact toy_ok|]. split; [apply trace_history; vm_compute; reflexivity|]. split; [apply quiet_stack|]. split; [apply quiet_calls|].
  split; [apply event_okb_ok; vm_compute; reflexivity|]. split; [vm_compute; reflexivity|]. vm_compute. discriminate.
Qed.
Print Assumptions C68_hmac_frame_refuted.
