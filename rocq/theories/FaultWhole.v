(** The whole device at the cable (Whole.v) while calls into the operating system fail. *)
From Verif Require Import Base Env UiFlow App SpecTrace ReadApp SpecRaw Wire Restart Fault LowApp Buttons FaultButtons Whole.

(** One turn of app_main.c:50-78, or one button event inside of it, in which the calls [F] says
    fail: as [whole_step].  Simplification: the command is taken from the packet
    ([command_of]), not read again from the I/O buffer while it is handled; C80_none shows
    that this is the same where no call fails. *)
Definition fwhole_step (E : env) (F : faults) (U : ux) (w : whole) (a : act) : whole * list wire_out :=
  let d := wh_dev w in
  let '(io, (d, os)) :=
    match a with
    | Arrives packet r =>
        (match dv_at d with P_OFF => wh_io w | _ => write_over packet (wh_io w) end, receive_by (fstep E F) d (command_of packet r))
    | Presses b => (wh_io w, press_by (fstep E F) U d b)
    end in
  let '(io, l) := send_all (concat (map snd os)) io in
  (mk_whole d io, l).
