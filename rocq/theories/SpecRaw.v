(** Commands as received: bytes in a memory that goes on behind them. *)
From Verif Require Import Base Env App SpecTrace ReadApp.

(** The command a sequence of bytes is: class, instruction, P1, P2, the number of data
    bytes, exactly so many data bytes. *)
Definition command_of (frame : bytes) (r : rnd) : event :=
  match frame with
  | cla :: ins :: p1 :: p2 :: lc :: data => if blen data =? lc then Apdu cla ins p1 p2 data r else BadApdu
  | _ => BadApdu
  end.
(** The first [len] bytes of the memory [io]. *)
Definition received (io : bytes) (len : N) : bytes := firstn (N.to_nat len) io.
(** What happened, in the terms of SpecTrace. *)
Definition decoded (e : raw_event) : event :=
  match e with RawApdu io len r => command_of (received io len) r | RawUi e => e end.

(** Memory holds bytes and is at least as long as what was received; random numbers as in
    [event_ok].  The memory may end right behind the command, or go on with anything. *)
Definition raw_ok (e : raw_event) : Prop :=
  match e with
  | RawApdu io len r =>
      bytes_ok io = true /\ len <= blen io /\
      Forall (fun k => length k = 32%nat /\ bytes_ok k = true) (r_nonces r) /\ Forall (fun i => i < 256) (r_ids r)
  | RawUi e => match e with Apdu _ _ _ _ _ _ | BadApdu => False | _ => True end
  end.
(** As [history], with commands in memory. *)
Inductive raw_history (E : env) (key : bytes) : list (raw_event * list output) -> state -> Prop :=
| raw_start : raw_history E key [] (init key)
| raw_next : forall tr st e outs st',
    raw_history E key tr st -> raw_ok e -> raw_step E st e = (st', outs) -> ~ In ODiverge outs ->
    raw_history E key (tr ++ [(e, outs)]) st'.
Definition decode (tr : list (raw_event * list output)) : list obs := map (fun o => (decoded (fst o), snd o)) tr.

(** The memory that holds a command, with [behind] behind it. *)
Definition encoded (behind : bytes) (e : event) : raw_event :=
  match e with
  | Apdu cla ins p1 p2 data r => RawApdu (cla :: ins :: p1 :: p2 :: blen data :: data ++ behind) (5 + blen data) r
  | BadApdu => RawApdu behind 0 (mk_rnd [] [])
  | e => RawUi e
  end.
Definition encode (behind : bytes) (tr : list obs) : list (raw_event * list output) :=
  map (fun o => (encoded behind (fst o), snd o)) tr.
