(** src/ui: the table of screens of a flow, the approve/reject pair, the path and
    application-id screens and the dynamic (computed) pages.  The SDK's walking
    through the table is in Buttons.v; drawing is not modelled. *)
From Coq Require Import String.
From Verif Require Import Base Bip32 Format.

(** constants.h: MAX_NUMBER_OF_SCREENS; the table has one more cell (ui_main.h:11). *)
Definition MAX_NUMBER_OF_SCREENS : N := 8.

(** A cell of the flow table. *)
Inductive screen :=
| SC_INFO (title : text)             (* icon and a line of text *)
| SC_TEXT (title body : text)        (* title and text; no button action *)
| SC_PATH (title body : text) (both_approves : bool)  (* ui_bip32_path.c *)
| SC_UPPER | SC_PAGE | SC_LOWER      (* ui_dynamic_flow.c:80-86 *)
| SC_APPROVE | SC_REJECT             (* ui_approve_reject.c:8-22 *)
| SC_BUTTON (title : text)           (* menu entries *)
| SC_LOOP | SC_END.

(** The table filled so far; the position is its length (ui_main.h:13-22). *)
Definition flow := list screen.

(** ui_main.h:18-22 *)
Definition ui_add_screen (s : screen) (f : flow) : bool * flow :=
  if MAX_NUMBER_OF_SCREENS <=? blen f then (false, f) else (true, f ++ [s]).

(** Callers that ignore the returned boolean. *)
Definition add (s : screen) (f : flow) : flow := snd (ui_add_screen s f).

(** ui_main.h:13-16 with ui_approve_reject.c:24-32.  [None]: a NULL pointer would be
    written through.  The two ui_next_sreen_ptr calls are arguments of one call, so their
    order is the compiler's; left to right is assumed. *)
Definition ui_approve_reject_screens (f : flow) : option flow :=
  if MAX_NUMBER_OF_SCREENS <? blen f + 2 then None else Some (f ++ [SC_APPROVE; SC_REJECT]).

(** ui_main.h:24-35: the two final cells; [None] when it returns false. *)
Definition ui_display_screens (f : flow) : option flow :=
  if MAX_NUMBER_OF_SCREENS <? blen f + 2 then None else Some (f ++ [SC_LOOP; SC_END]).

(** ui_bip32_path.c:29-45 *)
Definition ui_bip32_path_screen (p : path) (title : text) (cap : nat) (both : bool) : option screen :=
  match bip32_path_format cap p with
  | None => None
  | Some t => Some (SC_PATH title t both)
  end.

(** ui_application_id.c:14-22 *)
Definition ui_application_id_screen (id : N) : screen := SC_TEXT (str "Application") (app_id_text id).

(** ui_dynamic_flow.c:12-17: page count and current page (INDEX_NOT_EXIST: outside). *)
Record dyn := mk_dyn { dy_count : N; dy_current : N }.
Definition dyn_none : dyn := mk_dyn 0 INDEX_NOT_EXIST.

(** ui_dynamic_flow.c:88-109 *)
Definition ui_add_dynamic_flow_screens (f : flow) (count : N) : option (flow * dyn) :=
  if MAX_NUMBER_OF_SCREENS <? blen f + 3 then None
  else if (count =? 0) || (count =? INDEX_NOT_EXIST) then None
  else Some (add SC_LOWER (add SC_PAGE (add SC_UPPER f)), mk_dyn count INDEX_NOT_EXIST).

(** ui_dynamic_flow.c:47-61: the lower delimiter was reached.  The result says which
    page to compute, [None] when the flow goes on to the static screen after it. *)
Definition ui_dynamic_step_right (d : dyn) : dyn * option N :=
  if dy_current d =? INDEX_NOT_EXIST then
    let k := u8 (dy_count d + two8 - 1) in (mk_dyn (dy_count d) k, Some k)
  else if dy_current d + 1 <? dy_count d then
    let k := dy_current d + 1 in (mk_dyn (dy_count d) k, Some k)
  else (mk_dyn (dy_count d) INDEX_NOT_EXIST, None).

(** ui_dynamic_flow.c:63-78: the upper delimiter was reached. *)
Definition ui_dynamic_step_left (d : dyn) : dyn * option N :=
  if dy_current d =? INDEX_NOT_EXIST then (mk_dyn (dy_count d) 0, Some 0)
  else if dy_current d =? 0 then (mk_dyn (dy_count d) INDEX_NOT_EXIST, None)
  else let k := dy_current d - 1 in (mk_dyn (dy_count d) k, Some k).

(** ui_menu.c:29-41, 47-55; APPNAME "Ergo". *)
Definition menu_flow : option flow :=
  ui_display_screens (add (SC_BUTTON (str "Quit")) (add (SC_BUTTON (str "About"))
                      (add (SC_INFO (str "Ergo is ready")) []))).
Definition about_flow : option flow :=
  ui_display_screens (add (SC_BUTTON (str "Back")) (add (SC_TEXT (str "Version") (str "0.0.5"))
                      (add (SC_TEXT (str "Ergo App") (str "(c) 2024 Ergo")) []))).
