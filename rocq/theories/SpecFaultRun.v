(** Runs by buttons in which calls into the operating system fail, and runs in which none does
    that look the same. *)
From Verif Require Import Base Env UiFlow App SpecTx SpecTrace SpecScreen Fault LowApp SpecFault Buttons SpecButtons FaultButtons.

(** As [operated] (SpecButtons.v); each action with what goes wrong in it. *)
Definition fdeed := (faults * deed)%type.
Inductive foperated (E : env) (U : ux) (key : bytes) : list fdeed -> device -> Prop :=
| foperated_start : foperated E U key [] (switched_on key)
| foperated_more : forall l d F a d' os, foperated E U key l d -> stack_ok F -> hmac_works F -> action_ok a ->
    foperate E F U d a = (d', os) -> sound os -> foperated E U key (l ++ [(F, (a, os))]) d'.

(** An action with failing calls, and the actions that stand for it on a device in which no
    call fails.  A press: the same press with the same effect; or, if it was answered with
    one of the error codes for failing calls, single presses without an answer that lead to
    Reject, and both buttons there.  A command: the same command (up to useless draws of the
    random generator) with the same answer; or, if it was answered with such an error code,
    some command refused. *)
Inductive stands : fdeed -> list deed -> Prop :=
| stands_press : forall F b os, stands (F, (Press b, os)) [(Press b, os)]
| stands_off : forall F e, stands (F, (Host e, [])) [(Host e, [])]
| stands_host : forall F e e' outs, same_event e e' -> (e' = e \/ call_failed F) ->
    stands (F, (Host e, [(e, outs)])) [(Host e', [(e', outs)])]
| stands_refused : forall F e e' s s', call_failed F -> fault_status s -> s' <> SW_OK ->
    stands (F, (Host e, [(e, [OResp [] s])])) [(Host e', [(e', [OResp [] s'])])]
| stands_out : forall F b e s l2, call_failed F -> fault_status s ->
    Forall (fun x => exists b, fst x = Press b /\ b <> BOTH /\ answered x = false) l2 ->
    stands (F, (Press b, [(e, [OResp [] s])])) (l2 ++ [(Press BOTH, [(UiReject, [OResp [] SW_DENY])])]).

(** Part [p] of card [c] was displayed at some moment of [l'], where [l] is what came before. *)
Definition fseen (E : env) (U : ux) (key : bytes) (l l' : list fdeed) (c : card) (p : nat) : Prop :=
  exists l1 l2 d, l' = l1 ++ l2 /\ foperated E U key (l ++ l1) d /\ displayed d = Some (c, p).
