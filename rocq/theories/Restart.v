(** Starting the application, on whatever an earlier run left in memory. *)
From Verif Require Import Base UiFlow App.

(** context.c:11-20: the context is cleared, the session key drawn ([key]); the table of
    screens and the statics of the ui files are outside the context and stay. *)
Definition app_init (mem : state) (key : bytes) : state :=
  set_command (mk_state 0 key CMD_NONE false X_NONE (st_ui mem) (st_flow mem) (st_dyn mem)) CMD_NONE.
(** ui_menu.c:29-41 on such a memory: the statics of the dynamic flow are not written. *)
Definition menu_shown (st : state) : state :=
  mk_state (st_connected st) (st_key st) (st_cmd st) false (st_ctx st) U_MENU menu_cells (st_dyn st).
(** app_main.c:42-49 *)
Definition restart (mem : state) (key : bytes) : state := menu_shown (app_init mem key).
