(** The device between two packets: what helpers/response.h sends and what app_main.c:46-78
    receives, both through the one I/O buffer G_io_apdu_buffer.  The functions io_recv_command
    and io_send_response_buffer belong to the SDK and are modelled from its interface: a packet
    overwrites the start of the buffer, an answer is put together there, and an answer that
    does not fit is replaced by a status. *)
From Verif Require Import Base Env App ReadApp.

(** IO_APDU_BUFFER_SIZE of the SDK: 5 + 255 *)
Definition IO_SIZE : N := 260.

Record wire := mk_wire { w_st : state; w_io : bytes }.
(** A string written over the start of the memory. *)
Definition write_over (l mem : bytes) : bytes := l ++ skipn (length l) mem.

(** io_send_response_buffer (response.h:14-16) and io_send_sw (response.h:10-12, 18-26): the
    memory afterwards and the packet sent.  The data of an answer never lie in the buffer
    itself (ainpt_response.c, da_response.c, epk_response.c, stx_response.c, app_name.c,
    app_version.c). *)
Definition io_send (data : bytes) (s : sw) (io : bytes) : bytes * bytes :=
  let packet := if IO_SIZE - 2 <? blen data then be_bytes 2 (sw_num SW_WRONG_RESPONSE_LENGTH)
                else data ++ be_bytes 2 (sw_num s) in
  (write_over packet io, packet).

(** What leaves the device: a packet, or something on the screen (everything that is not an
    answer). *)
Inductive wire_out := Packet (p : bytes) | Screen (o : output).
Fixpoint send_all (outs : list output) (io : bytes) : bytes * list wire_out :=
  match outs with
  | [] => (io, [])
  | OResp data s :: t =>
      let '(io, p) := io_send data s io in
      let '(io, l) := send_all t io in (io, Packet p :: l)
  | o :: t => let '(io, l) := send_all t io in (io, Screen o :: l)
  end.

(** A packet arrives, with the random numbers drawn while it is handled, or the user acts. *)
Inductive wire_event := Receive (packet : bytes) (r : rnd) | Press (e : event).
(** One turn of app_main.c:50-78, or one button event inside of it. *)
Definition wire_step (E : env) (w : wire) (e : wire_event) : wire * list wire_out :=
  match e with
  | Receive packet r =>
      let io := write_over packet (w_io w) in
      let '(st, outs) := raw_step E (w_st w) (RawApdu io (blen packet) r) in
      let '(io, l) := send_all outs io in
      (mk_wire st io, l)
  | Press e =>
      let '(st, outs) := raw_step E (w_st w) (RawUi e) in
      let '(io, l) := send_all outs (w_io w) in
      (mk_wire st io, l)
  end.
