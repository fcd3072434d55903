(** What is on the screen, and what the user decided, read off a history. *)
From Verif Require Import Base Bip32 UiFlow App SpecTx SpecTrace SpecApdu.

Definition by_user (e : event) : bool := match e with Apdu _ _ _ _ _ _ | BadApdu => false | _ => true end.
Definition responds (outs : list output) : bool :=
  existsb (fun o => match o with OResp _ _ => true | _ => false end) outs.
Fixpoint shown_by (outs : list output) : option (ui_kind * flow * list page) :=
  match outs with
  | [] => None
  | OShow k f pages :: _ => Some (k, f, pages)
  | _ :: t => shown_by t
  end.

(** A question put to the user: the command that asked, the kind, the flow and its
    computed pages.  It stays until an action of the user is answered to the host. *)
Definition question := (event * ui_kind * flow * list page)%type.
Definition question_after (q : option question) (o : obs) : option question :=
  match shown_by (snd o) with
  | Some (k, f, pages) => Some (fst o, k, f, pages)
  | None => if by_user (fst o) && responds (snd o) then None else q
  end.
Definition on_screen (tr : list obs) : option question := fold_left question_after tr None.

(** The application token remembered: that of the last request of an export, attestation
    or signing session the user approved. *)
Definition token_of (e : event) : N :=
  match e with Apdu _ ins p1 p2 data _ => request_token ins p1 p2 data | _ => 0 end.
Definition asks_for_token (k : ui_kind) : bool :=
  match k with U_EPK | U_DA | U_ATTEST | U_STX_APPROVE => true | _ => false end.
Definition remember (s : option question * N) (o : obs) : option question * N :=
  (question_after (fst s) o,
   match fst s with
   | Some (e, k, _, _) => if asks_for_token k && is_approval o then token_of e else snd s
   | None => snd s
   end).
Definition remembered (tr : list obs) : N := snd (fold_left remember tr (None, 0)).

(** Fields of the export requests (doc/INS-10, doc/INS-11). *)
Definition key_path (data : bytes) : path := path_at 0 data.
Definition address_network (data : bytes) : N := num 0 1 data.
Definition address_path (data : bytes) : path := path_at 1 data.
