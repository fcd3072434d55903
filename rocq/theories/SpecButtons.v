(** Operating the device by its buttons: what there is to see, and what a press does. *)
From Coq Require Import String.
From Verif Require Import Base Env TxTable P2pkOp UiFlow App SpecTx SpecTrace SpecApdu SpecScreen Buttons.

(** Runs of the device from power-on: each action with what the application did.  A run
    ends where the device hangs (C36) or its program is undefined (C53). *)
Definition deed := (action * list obs)%type.
Definition action_ok (a : action) : Prop :=
  match a with Host e => by_user e = false /\ event_ok e | Press _ => True end.
Definition sound (os : list obs) : Prop := Forall (fun o => ~ In ODiverge (snd o) /\ ~ In OUb (snd o)) os.
Inductive operated (E : env) (U : ux) (key : bytes) : list deed -> device -> Prop :=
| operated_start : operated E U key [] (switched_on key)
| operated_more : forall l d a d' os, operated E U key l d -> action_ok a -> operate E U d a = (d', os) -> sound os ->
    operated E U key (l ++ [(a, os)]) d'.

(** The same run as a history of the application. *)
Definition happened (l : list deed) : list obs := concat (map snd l).
(** Something was answered to the host. *)
Definition answered (x : deed) : bool := existsb (fun o => responds (snd o)) (snd x).
(** The buttons pressed. *)
Definition pressed (l : list deed) : list button := flat_map (fun x => match fst x with Press b => [b] | Host _ => [] end) l.

(** The cards of a question, in order: its own screens with the computed pages in their
    place, then Approve and Reject.  [None]: a page that cannot be computed. *)
Definition page_cards (pages : list page) : list (option card) :=
  map (fun p => match p with Ok (t, b) => Some (C_TEXT t b) | Fail _ => None end) pages.
Definition cards (f : flow) (pages : list page) : list (option card) :=
  flat_map (fun s => match s with
                     | SC_INFO t => [Some (C_INFO t)]
                     | SC_TEXT t b | SC_PATH t b _ => [Some (C_TEXT t b)]
                     | SC_PAGE => page_cards pages
                     | SC_APPROVE => [Some C_APPROVE]
                     | SC_REJECT => [Some C_REJECT]
                     | SC_BUTTON t => [Some (C_BUTTON t)]
                     | _ => []
                     end) f.

(** A position among the cards: card and part of its text, both counted from 0. *)
Definition valid (U : ux) (cs : list (option card)) (x : nat * nat) : Prop :=
  exists c, nth_error cs (fst x) = Some (Some c) /\ (snd x <= extra U c)%nat.
(** [last_part]: the part of card [n] shown last. *)
Definition last_part (U : ux) (cs : list (option card)) (n p : nat) : Prop :=
  exists c, nth_error cs n = Some (Some c) /\ p = extra U c.
(** One press that is not answered, on a ring of cards: from part [p] of card [n] to part
    [p'] of card [n'].  Right goes through all parts of a card before the next one, and
    starts that with its first part; left goes back (to some part of the card before).
    The last card and the first one are neighbours. *)
Inductive turn (U : ux) (cs : list (option card)) : button -> nat * nat -> nat * nat -> Prop :=
| turn_part : forall n p, ~ last_part U cs n p -> turn U cs RIGHT (n, p) (n, S p)
| turn_right : forall n p, last_part U cs n p -> (S n < length cs)%nat -> turn U cs RIGHT (n, p) (S n, O)
| turn_around : forall n p p', last_part U cs n p -> S n = length cs -> turn U cs RIGHT (n, p) (O, p')
| turn_back_part : forall n p, turn U cs LEFT (n, S p) (n, p)
| turn_left : forall n p, turn U cs LEFT (S n, O) (n, p)
| turn_back_around : forall n p, S n = length cs -> turn U cs LEFT (O, O) (n, p)
| turn_both : forall x, turn U cs BOTH x x.
Inductive turned (U : ux) (cs : list (option card)) : list button -> nat * nat -> nat * nat -> Prop :=
| turned_nil : forall x, turned U cs [] x x
| turned_more : forall b l x y z, turned U cs l x y -> turn U cs b y z -> valid U cs z -> turned U cs (l ++ [b]) x z.

(** The question [(k, f, pages)] has just been put. *)
Definition put (l : list deed) (k : ui_kind) (f : flow) (pages : list page) : Prop :=
  exists l0 e, l = l0 ++ [(Host e, [(e, [OShow k f pages])])].
(** It is still there after [l]: no press was answered. *)
Definition still (l : list deed) : Prop := Forall (fun x => match fst x with Press _ => answered x = false | Host _ => True end) l.

(** The answers a press can cause with the device in [d], a question of kind [k] before the
    user: both buttons on Approve or Reject, both buttons on the path when signing begins,
    or turning to a page that cannot be computed. *)
Definition decision (k : ui_kind) (pages : list page) (d : device) (b : button) (os : list obs) : Prop :=
  (b = BOTH /\ displayed d = Some (C_APPROVE, O) /\ exists x s, os = [(UiApprove, [OResp x s])]) \/
  (b = BOTH /\ displayed d = Some (C_REJECT, O) /\ os = [(UiReject, [OResp [] SW_DENY])]) \/
  (b = BOTH /\ k = U_STX_APPROVE /\ (exists t x p, displayed d = Some (C_TEXT t x, p)) /\ exists x s, os = [(UiPathBoth, [OResp x s])]) \/
  (b <> BOTH /\ exists e s, (e = UiUpper \/ e = UiLower) /\ In (Fail s) pages /\ s <> SW_UB /\ os = [(e, [OResp [] s])]).

(** Part [p] of card [c] was displayed at some moment of [l'], where [l] is what came before. *)
Definition seen (E : env) (U : ux) (key : bytes) (l l' : list deed) (c : card) (p : nat) : Prop :=
  exists l1 l2 d, l' = l1 ++ l2 /\ operated E U key (l ++ l1) d /\ displayed d = Some (c, p).

(** Buttons do nothing any more. *)
Definition dead (E : env) (U : ux) (d : device) : Prop := forall b, press E U d b = (d, []).

(** How many parts there are to read in all. *)
Definition parts (U : ux) (cs : list (option card)) : nat :=
  list_sum (map (fun c => match c with Some c => S (extra U c) | None => 1%nat end) cs).

(** The first card of a key or address request. *)
Definition heading (e : event) : option text :=
  match e with
  | Apdu _ ins p1 _ _ _ =>
      if ins =? INS_KEY then Some (str "Ext PubKey Export")
      else if ins =? INS_ADDRESS then Some (if p1 =? 1 then str "Confirm Send Address" else str "Confirm Address")
      else None
  | _ => None
  end.
(** A request with that heading was refused because its path cannot be written out, and no
    question has been put since. *)
Definition left_over (tr : list obs) (t : text) : Prop :=
  exists a e b, tr = a ++ (e, [OResp [] SW_BIP32_FORMATTING_FAILED]) :: b /\ heading e = Some t /\ Forall (fun o => shown_by (snd o) = None) b.
(** The menus, shown while there is no question. *)
Definition menu_cards : list (option card) := cards menu_cells [] ++ cards about_cells [].
