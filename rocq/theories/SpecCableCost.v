(** What the device does in a run at the cable with failing calls. *)
From Verif Require Import Base Env UiFlow App SpecTx SpecTrace SpecRaw Wire SpecWire Restart Fault LowApp SpecFault Buttons SpecButtons FaultButtons SpecFaultRun Whole SpecWhole FaultWhole SpecFaultWhole.

(** A run as [fgoes_on], with what each moment was to the device: the command understood or the
    press, and the events and their outputs (answers and screens). *)
Inductive fdoes (E : env) (U : ux) (w0 : whole) : list (faults * moment) -> list fdeed -> whole -> Prop :=
| fdoes_start : fdoes E U w0 [] [] w0
| fdoes_more : forall tr l w F a w' out os, fdoes E U w0 tr l w -> stack_ok F -> hmac_works F -> act_ok a -> fwhole_step E F U w a = (w', out) ->
    ~ In (Screen ODiverge) out -> ~ In (Screen OUb) out -> foperate E F U (wh_dev w) (understood a) = (wh_dev w', os) ->
    fdoes E U w0 (tr ++ [(F, mk_moment a (packets out) (displayed (wh_dev w')))]) (l ++ [(F, (understood a, os))]) w'.
