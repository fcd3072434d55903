(** Runs of the whole device in which calls into the operating system fail, as seen from
    outside, and runs in which none does that look the same. *)
From Verif Require Import Base Env UiFlow App SpecTx SpecTrace ReadApp SpecRaw Wire SpecWire Restart Fault LowApp SpecFault Buttons SpecButtons FaultButtons Whole SpecWhole FaultWhole.

(** As [goes_on] (SpecWhole.v); each moment with what goes wrong in it. *)
Inductive fgoes_on (E : env) (U : ux) (w0 : whole) : list (faults * moment) -> whole -> Prop :=
| fgoes_on_start : fgoes_on E U w0 [] w0
| fgoes_on_more : forall tr w F a w' l, fgoes_on E U w0 tr w -> stack_ok F -> hmac_works F -> act_ok a -> fwhole_step E F U w a = (w', l) ->
    ~ In (Screen ODiverge) l -> ~ In (Screen OUb) l ->
    fgoes_on E U w0 (tr ++ [(F, mk_moment a (packets l) (displayed (wh_dev w')))]) w'.

(** A moment with failing calls, and the moments that stand for it on a device in which no
    call fails: the same; or a packet with the same command (up to useless draws of the random
    generator), answered by the same packets; or, if a packet or a press was answered with one
    of the error codes for failing calls: a packet refused, or single presses without an
    answer that lead to Reject and both buttons there.  The display afterwards is the same. *)
Inductive replays : faults * moment -> list moment -> Prop :=
| rp_same : forall F m, replays (F, m) [m]
| rp_drawn : forall F p r p' r' sent shown, call_failed F -> same_event (command_of p r) (command_of p' r') ->
    replays (F, mk_moment (Arrives p r) sent shown) [mk_moment (Arrives p' r') sent shown]
| rp_refused : forall F p r p' r' s s' shown, call_failed F -> fault_status s -> s' <> SW_OK ->
    replays (F, mk_moment (Arrives p r) [packet_of [] s] shown) [mk_moment (Arrives p' r') [packet_of [] s'] shown]
| rp_out : forall F b s ms shown, call_failed F -> fault_status s ->
    Forall (fun m => (exists b, mo_act m = Presses b /\ b <> BOTH) /\ mo_sent m = []) ms ->
    replays (F, mk_moment (Presses b) [packet_of [] s] shown) (ms ++ [mk_moment (Presses BOTH) [[0x69; 0x85]] shown]).
