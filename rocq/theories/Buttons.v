(** The device operated by its two buttons.  src/ui builds the table of screens (UiFlow.v)
    and binds callbacks to them; walking through the table is done by the SDK's flow engine
    (lib_ux, not in the repository), modelled here from its documented behaviour: right goes
    to the next cell, left to the previous one, the loop marker joins the ends, both buttons
    run the validation step of a cell if it has one, and a text too long for the display is
    shown in parts. *)
From Coq Require Import String.
From Verif Require Import Base Env UiFlow App.

Inductive button := LEFT | RIGHT | BOTH.

(** What the display can show. *)
Inductive card :=
| C_INFO (title : text)          (* UX_STEP_NOCB, layout pn or pnn *)
| C_TEXT (title body : text)     (* layouts bn and bnnn_paging *)
| C_APPROVE | C_REJECT           (* ui_approve_reject.c:8-22 *)
| C_BUTTON (title : text).       (* ui_menu.c:26, 27, 45 *)

(** The SDK: how many parts a text has besides the first, and whether both buttons act
    on a part that is not the last.  Nothing is assumed about either. *)
Record ux := mk_ux { ux_extra : text -> text -> nat; ux_early : bool }.
Definition extra (U : ux) (c : card) : nat := match c with C_TEXT t b => ux_extra U t b | _ => O end.

(** Where the engine is: at a cell of the table and a part of its text; at a cell that was
    overwritten after its card was drawn ([P_WAS]; a request that fails while its screens are
    prepared leaves them in the table, epk_ui.c:54-69, da_ui.c:77-93); in the one-step
    flow of ui_bip32_path.c:17-20, with the display as it was; or the application was left.
    Simplified: in the one-step flow the SDK may still turn the parts of the text shown. *)
Inductive place := P_AT (i part : nat) | P_WAS (c : card) (i part : nat) | P_DEAD (i part : nat) | P_OFF.

(** The state of the application, the text buffers of the computed page
    (ui_dynamic_flow.c:19), the place. *)
Record device := mk_device { dv_st : state; dv_page : text * text; dv_at : place }.

(** app_main.c:46-50: the menu is displayed. *)
Definition switched_on (key : bytes) : device := mk_device (init key) ([], []) (P_AT 0 0).

Definition cell (st : state) (i : nat) : screen := nth i (st_flow st) SC_END.

(** The card of a cell; delimiters and markers have none. *)
Definition card_of (page : text * text) (s : screen) : option card :=
  match s with
  | SC_INFO t => Some (C_INFO t)
  | SC_TEXT t b | SC_PATH t b _ => Some (C_TEXT t b)
  | SC_PAGE => Some (C_TEXT (fst page) (snd page))
  | SC_APPROVE => Some C_APPROVE
  | SC_REJECT => Some C_REJECT
  | SC_BUTTON t => Some (C_BUTTON t)
  | _ => None
  end.
(** What is displayed: a card and the part of its text. *)
Definition displayed (d : device) : option (card * nat) :=
  match dv_at d with
  | P_AT i part | P_DEAD i part =>
      match card_of (dv_page d) (cell (dv_st d) i) with Some c => Some (c, part) | None => None end
  | P_WAS c _ part => Some (c, part)
  | P_OFF => None
  end.

Definition screen_dec : forall a b : screen, {a = b} + {a <> b}.
Proof. repeat decide equality. Defined.
(** The place after the application changed its state to [st'] without displaying a flow. *)
Definition kept (d : device) (st' : state) : place :=
  match dv_at d with
  | P_AT i part =>
      if screen_dec (cell (dv_st d) i) (cell st' i) then P_AT i part
      else match card_of (dv_page d) (cell (dv_st d) i) with Some c => P_WAS c i part | None => P_AT i part end
  | at_ => at_
  end.

Section Engine.
  Variables (E : env) (U : ux).

  (** The layout of a cell is drawn: from its first part, or from the last one when the
      engine came from a higher index (ux_flow_direction). *)
  Definition land (st : state) (page : text * text) (i : nat) (forward : bool) : device :=
    mk_device st page (P_AT i (if forward then O else
      match card_of page (cell st i) with Some c => extra U c | None => O end)).

  (** The engine arrives at a cell.  The delimiters run ui_dynamic_flow.c:47-78: a page that
      could be computed is displayed in the cell between them; past the last or first page
      the cell outside is.  The cells beside a delimiter are no delimiters. *)
  Definition arrive (st : state) (page : text * text) (i : nat) (forward : bool) : device * list (event * list output) :=
    match cell st i with
    | SC_UPPER =>
        let '(st', outs) := step E st UiUpper in
        (match outs with
         | [OPage _ t b] => land st' (t, b) (S i) true              (* ux_flow_next *)
         | [] => land st' page (i - 1) (Nat.leb 2 i)                (* bnnn_paging_edgecase, ui_dynamic_flow.c:25-30 *)
         | _ => mk_device st' page (P_AT 0 0)                       (* ui_menu_main *)
         end, [(UiUpper, outs)])
    | SC_LOWER =>
        let '(st', outs) := step E st UiLower in
        (match outs with
         | [OPage _ t b] => land st' (t, b) (i - 1) true            (* bnnn_paging_edgecase *)
         | [] => land st' page (S i) true                           (* ux_flow_next *)
         | _ => mk_device st' page (P_AT 0 0)
         end, [(UiLower, outs)])
    | _ => (land st page i forward, [])
    end.

  (** ux_flow_next and ux_flow_prev *)
  Definition flow_next (d : device) (i : nat) : device * list (event * list output) :=
    match cell (dv_st d) (S i) with
    | SC_LOOP => arrive (dv_st d) (dv_page d) 0 (Nat.leb i 0)
    | SC_END => (d, [])
    | _ => arrive (dv_st d) (dv_page d) (S i) true
    end.
  Definition flow_prev (d : device) (i : nat) : device * list (event * list output) :=
    match i with
    | O => let n := length (st_flow (dv_st d)) in
           match cell (dv_st d) (n - 2) with
           | SC_LOOP => arrive (dv_st d) (dv_page d) (n - 3) true
           | _ => (d, [])
           end
    | S j => arrive (dv_st d) (dv_page d) j false
    end.

  (** A callback ran; all of them end in a menu (ui_menu_main, ui_menu_about). *)
  Definition fire (d : device) (e : event) (at_ : place) : device * list (event * list output) :=
    let '(st', outs) := step E (dv_st d) e in (mk_device st' (dv_page d) at_, [(e, outs)]).

  (** ux_flow_validate.  In the flows without callback for the path (ui_bip32_path.c:8-15)
      ux_flow_next is called in a flow of one step, where it does nothing. *)
  Definition validate (d : device) (i part : nat) : device * list (event * list output) :=
    match cell (dv_st d) i with
    | SC_APPROVE => fire d UiApprove (P_AT 0 0)
    | SC_REJECT => fire d UiReject (P_AT 0 0)
    | SC_PATH _ _ acts => fire d UiPathBoth (if acts : bool then P_AT 0 0 else P_DEAD i part)
    | SC_BUTTON t =>
        if bytes_eqb t (str "About") then fire d UiAbout (P_AT 0 0)
        else if bytes_eqb t (str "Back") then fire d UiBack (P_AT 0 0)
        else (mk_device (dv_st d) (dv_page d) P_OFF, [])             (* os_sched_exit, ui_menu.c:27 *)
    | _ => (d, [])
    end.

  (** The button callbacks of the layouts: the parts of a text come first. *)
  Definition press (d : device) (b : button) : device * list (event * list output) :=
    match dv_at d with
    | P_AT i part =>
        let last := match card_of (dv_page d) (cell (dv_st d) i) with Some c => extra U c | None => O end in
        match b with
        | RIGHT => if Nat.ltb part last then (mk_device (dv_st d) (dv_page d) (P_AT i (S part)), []) else flow_next d i
        | LEFT => match part with S p => (mk_device (dv_st d) (dv_page d) (P_AT i p), []) | O => flow_prev d i end
        | BOTH => if Nat.ltb part last && negb (ux_early U) then (d, []) else validate d i part
        end
    | P_WAS c i part =>
        match b with
        | RIGHT => if Nat.ltb part (extra U c) then (mk_device (dv_st d) (dv_page d) (P_WAS c i (S part)), []) else flow_next d i
        | LEFT => match part with S p => (mk_device (dv_st d) (dv_page d) (P_WAS c i p), []) | O => flow_prev d i end
        | BOTH => if Nat.ltb part (extra U c) && negb (ux_early U) then (d, []) else validate d i part
        end
    | _ => (d, [])
    end.

  (** A packet from the host.  Displaying a flow (ui_main.h:24-35) starts it at its first
      cell; anything else leaves the display alone, but perhaps not the table behind it. *)
  Definition receive (d : device) (e : event) : device * list (event * list output) :=
    match dv_at d with
    | P_OFF => (d, [])
    | _ => let '(st', outs) := step E (dv_st d) e in
             (mk_device st' (dv_page d)
                (if existsb (fun o => match o with OShow _ _ _ => true | _ => false end) outs then P_AT 0 0 else kept d st'),
              [(e, outs)])
    end.
End Engine.

(** What is done to the device. *)
Inductive action := Host (e : event) | Press (b : button).
Definition operate (E : env) (U : ux) (d : device) (a : action) : device * list (event * list output) :=
  match a with Host e => receive E d e | Press b => press E U d b end.
