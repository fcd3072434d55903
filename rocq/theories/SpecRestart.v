(** Lives of a device: run after run of the application. *)
From Verif Require Import Base Env App SpecTx SpecTrace SpecApdu SpecScreen Restart.

(** A run from some state; as in a history, it ends where the device hangs. *)
Inductive goes (E : env) (st0 : state) : list obs -> state -> Prop :=
| goes_start : goes E st0 [] st0
| goes_step : forall tr st e outs st', goes E st0 tr st -> event_ok e -> step E st e = (st', outs) -> ~ In ODiverge outs ->
    goes E st0 (tr ++ [(e, outs)]) st'.

(** The runs of a life, each with the session key drawn at its start.  A run is cut off
    anywhere, also in the middle of a command: what the next one finds in memory ([mem])
    is arbitrary. *)
Inductive life (E : env) : list (bytes * list obs) -> Prop :=
| life_new : life E []
| life_run : forall l mem key tr st, life E l -> goes E (restart mem key) tr st -> life E (l ++ [(key, tr)]).

(** A request that opens something: a key or address request, the start of a session. *)
Definition opens (e : event) : Prop :=
  match e with
  | Apdu cla ins p1 p2 _ _ => cla = CLA /\ params_ok ins p1 p2 = true /\
      (ins = INS_KEY \/ ins = INS_ADDRESS \/ (ins = INS_ATTEST \/ ins = INS_SIGN) /\ p1 = 1 /\ (p2 = 1 \/ p2 = 2))
  | _ => False
  end.
(** What the device puts out, event by event. *)
Definition outputs (E : env) (st : state) (evs : list event) : list (list output) := snd (run E st evs).
