(** Packets in, packets out: the device as the cable sees it. *)
From Verif Require Import Base Env App SpecTrace SpecRaw ReadApp Wire SpecScreen.

(** The packet of an answer: the data, then the status, most significant byte first. *)
Definition packet_of (data : bytes) (s : sw) : bytes := data ++ [sw_num s / 256; sw_num s mod 256].
Definition on_the_wire (o : output) : wire_out :=
  match o with OResp data s => Packet (packet_of data s) | o => Screen o end.

(** What can arrive: at most a buffer full of bytes; and what the user can do. *)
Definition wire_ok (e : wire_event) : Prop :=
  match e with
  | Receive packet r => bytes_ok packet = true /\ blen packet <= 260 /\
      Forall (fun k => length k = 32%nat /\ bytes_ok k = true) (r_nonces r) /\ Forall (fun i => i < 256) (r_ids r)
  | Press e => by_user e = true
  end.
(** Runs from the start of the application, the I/O buffer holding [io]. *)
Inductive wire_history (E : env) (key io : bytes) : list (wire_event * list wire_out) -> wire -> Prop :=
| wire_start : wire_history E key io [] (mk_wire (init key) io)
| wire_next : forall tr w e outs w',
    wire_history E key io tr w -> wire_ok e -> wire_step E w e = (w', outs) -> ~ In (Screen ODiverge) outs ->
    wire_history E key io (tr ++ [(e, outs)]) w'.

(** A packet as a command, and a command as a packet. *)
Definition heard (e : wire_event) : event :=
  match e with Receive packet r => command_of packet r | Press e => e end.
Definition spoken (e : event) : wire_event :=
  match e with
  | Apdu cla ins p1 p2 data r => Receive (cla :: ins :: p1 :: p2 :: blen data :: data) r
  | BadApdu => Receive [] (mk_rnd [] [])
  | e => Press e
  end.

(** Counting commands and answers. *)
Definition command_count (tr : list obs) : nat := length (filter (fun o => negb (by_user (fst o))) tr).
Definition answer_count (tr : list obs) : nat :=
  length (filter (fun o => match o with OResp _ _ => true | _ => false end) (concat (map snd tr))).
Definition open_questions (tr : list obs) : nat := match on_screen tr with Some _ => 1 | None => 0 end.
