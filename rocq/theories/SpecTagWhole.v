(** Runs of the whole device in which cx_hmac_sha256 may fail too, as seen from outside, and
    runs in which it does not that differ from them in tags only. *)
From Verif Require Import Base Env UiFlow App SpecTx SpecTrace ReadApp SpecRaw Wire SpecWire Restart Fault LowApp SpecFault Buttons SpecButtons FaultButtons SpecFaultRun Whole SpecWhole FaultWhole SpecFaultWhole SpecTags.

(** As [fgoes_on] (SpecFaultWhole.v), without [hmac_works]. *)
Inductive hgoes_on (E : env) (U : ux) (w0 : whole) : list (faults * moment) -> whole -> Prop :=
| hgoes_on_start : hgoes_on E U w0 [] w0
| hgoes_on_more : forall tr w F a w' l, hgoes_on E U w0 tr w -> stack_ok F -> leaves_bytes F -> act_ok a -> fwhole_step E F U w a = (w', l) ->
    ~ In (Screen ODiverge) l -> ~ In (Screen OUb) l ->
    hgoes_on E U w0 (tr ++ [(F, mk_moment a (SpecWhole.packets l) (displayed (wh_dev w')))]) w'.

(** The same moment with the same failures but those of cx_hmac_sha256, or, if that failed,
    one with another tag in the packet sent or received, or with a frame refused for another
    one (SpecTags.v).  The display is the same. *)
Inductive sent_right : faults * moment -> faults * moment -> Prop :=
| sr_same : forall F m, sent_right (F, m) (tags_right F, m)
| sr_other : forall F p r p' r' outs outs' shown, hmac_failed F -> retagged (command_of p r, outs) (command_of p' r', outs') ->
    sent_right (F, mk_moment (Arrives p r) (SpecWhole.packets (map on_the_wire outs)) shown)
               (tags_right F, mk_moment (Arrives p' r') (SpecWhole.packets (map on_the_wire outs')) shown).
