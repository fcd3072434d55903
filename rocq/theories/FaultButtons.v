(** The device operated by its two buttons, with calls into the operating system that fail:
    the engine of Buttons.v over the application of LowApp.v.  Where Buttons.v calls [step],
    this calls the function [run] given; nothing else differs (ButtonFault.v, [same_press],
    [same_receive]). *)
From Coq Require Import String.
From Verif Require Import Base Env UiFlow App Fault LowApp Buttons.

Section Engine.
  Variables (run : state -> event -> result) (U : ux).

  (** ui_dynamic_flow.c:47-78, as [arrive] *)
  Definition arrive_by (st : state) (page : text * text) (i : nat) (forward : bool) : device * list (event * list output) :=
    match cell st i with
    | SC_UPPER =>
        let '(st', outs) := run st UiUpper in
        (match outs with
         | [OPage _ t b] => land U st' (t, b) (S i) true
         | [] => land U st' page (i - 1) (Nat.leb 2 i)
         | _ => mk_device st' page (P_AT 0 0)
         end, [(UiUpper, outs)])
    | SC_LOWER =>
        let '(st', outs) := run st UiLower in
        (match outs with
         | [OPage _ t b] => land U st' (t, b) (i - 1) true
         | [] => land U st' page (S i) true
         | _ => mk_device st' page (P_AT 0 0)
         end, [(UiLower, outs)])
    | _ => (land U st page i forward, [])
    end.
  (** ux_flow_next and ux_flow_prev of the SDK, as [flow_next], [flow_prev] *)
  Definition flow_next_by (d : device) (i : nat) : device * list (event * list output) :=
    match cell (dv_st d) (S i) with
    | SC_LOOP => arrive_by (dv_st d) (dv_page d) 0 (Nat.leb i 0)
    | SC_END => (d, [])
    | _ => arrive_by (dv_st d) (dv_page d) (S i) true
    end.
  Definition flow_prev_by (d : device) (i : nat) : device * list (event * list output) :=
    match i with
    | O => let n := length (st_flow (dv_st d)) in
           match cell (dv_st d) (n - 2) with
           | SC_LOOP => arrive_by (dv_st d) (dv_page d) (n - 3) true
           | _ => (d, [])
           end
    | S j => arrive_by (dv_st d) (dv_page d) j false
    end.
  (** The callbacks (ui_approve_reject.c:8-22, ui_menu.c:26-45, ui_bip32_path.c:8-20), as
      [fire], [validate] *)
  Definition fire_by (d : device) (e : event) (at_ : place) : device * list (event * list output) :=
    let '(st', outs) := run (dv_st d) e in (mk_device st' (dv_page d) at_, [(e, outs)]).
  Definition validate_by (d : device) (i part : nat) : device * list (event * list output) :=
    match cell (dv_st d) i with
    | SC_APPROVE => fire_by d UiApprove (P_AT 0 0)
    | SC_REJECT => fire_by d UiReject (P_AT 0 0)
    | SC_PATH _ _ acts => fire_by d UiPathBoth (if acts : bool then P_AT 0 0 else P_DEAD i part)
    | SC_BUTTON t =>
        if bytes_eqb t (str "About") then fire_by d UiAbout (P_AT 0 0)
        else if bytes_eqb t (str "Back") then fire_by d UiBack (P_AT 0 0)
        else (mk_device (dv_st d) (dv_page d) P_OFF, [])
    | _ => (d, [])
    end.
  (** The button callbacks of the layouts, as [press] *)
  Definition press_by (d : device) (b : button) : device * list (event * list output) :=
    match dv_at d with
    | P_AT i part =>
        let last := match card_of (dv_page d) (cell (dv_st d) i) with Some c => extra U c | None => O end in
        match b with
        | RIGHT => if Nat.ltb part last then (mk_device (dv_st d) (dv_page d) (P_AT i (S part)), []) else flow_next_by d i
        | LEFT => match part with S p => (mk_device (dv_st d) (dv_page d) (P_AT i p), []) | O => flow_prev_by d i end
        | BOTH => if Nat.ltb part last && negb (ux_early U) then (d, []) else validate_by d i part
        end
    | P_WAS c i part =>
        match b with
        | RIGHT => if Nat.ltb part (extra U c) then (mk_device (dv_st d) (dv_page d) (P_WAS c i (S part)), []) else flow_next_by d i
        | LEFT => match part with S p => (mk_device (dv_st d) (dv_page d) (P_WAS c i p), []) | O => flow_prev_by d i end
        | BOTH => if Nat.ltb part (extra U c) && negb (ux_early U) then (d, []) else validate_by d i part
        end
    | _ => (d, [])
    end.
  (** A packet from the host (ui_main.h:24-35), as [receive] *)
  Definition receive_by (d : device) (e : event) : device * list (event * list output) :=
    match dv_at d with
    | P_OFF => (d, [])
    | _ => let '(st', outs) := run (dv_st d) e in
             (mk_device st' (dv_page d)
                (if existsb (fun o => match o with OShow _ _ _ => true | _ => false end) outs then P_AT 0 0 else kept d st'),
              [(e, outs)])
    end.
End Engine.

(** One action, in which the calls [F] says fail. *)
Definition foperate (E : env) (F : faults) (U : ux) (d : device) (a : action) : device * list (event * list output) :=
  match a with Host e => receive_by (fstep E F) d e | Press b => press_by (fstep E F) U d b end.
