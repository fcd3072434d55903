(** The whole device, as the cable and the user meet it: bytes come in and go out through the
    one I/O buffer (Wire.v), the two buttons walk through the screens (Buttons.v), and the
    application starts on whatever an earlier run left in memory (Restart.v). *)
From Verif Require Import Base Env UiFlow App ReadApp Wire Restart Buttons.

Record whole := mk_whole { wh_dev : device; wh_io : bytes }.
(** app_main.c:42-50 on a memory, page buffers (ui_dynamic_flow.c:19) and an I/O buffer left
    from before. *)
Definition power_on (mem : state) (page : text * text) (io key : bytes) : whole :=
  mk_whole (mk_device (restart mem key) page (P_AT 0 0)) io.

(** A packet arrives, with the random numbers drawn while it is handled; a button is pressed. *)
Inductive act := Arrives (packet : bytes) (r : rnd) | Presses (b : button).
(** One turn of app_main.c:50-78, or one button event inside of it.  After Quit the packets go
    to another application. *)
Definition whole_step (E : env) (U : ux) (w : whole) (a : act) : whole * list wire_out :=
  let d := wh_dev w in
  match a with
  | Arrives packet r =>
      match dv_at d with
      | P_OFF => (w, [])
      | _ =>
          let io := write_over packet (wh_io w) in
          let '(st, outs) := raw_step E (dv_st d) (RawApdu io (blen packet) r) in
          let at_ := if existsb (fun o => match o with OShow _ _ _ => true | _ => false end) outs then P_AT 0 0 else kept d st in
          let '(io, l) := send_all outs io in
          (mk_whole (mk_device st (dv_page d) at_) io, l)
      end
  | Presses b =>
      let '(d, os) := press E U d b in
      let '(io, l) := send_all (concat (map snd os)) (wh_io w) in
      (mk_whole d io, l)
  end.
