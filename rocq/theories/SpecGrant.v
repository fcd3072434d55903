(** A request for a key or an address that is granted, as seen at the cable and on the screen. *)
From Coq Require Import String.
From Verif Require Import Base Env App SpecTx SpecTrace SpecRequest Buttons SpecButtons Whole SpecWhole.

(** The command is answered at once. *)
Definition answered_at_once (packet : bytes) (r : rnd) (answer : bytes) (tr : list moment) : Prop :=
  exists shown, tr = [mk_moment (Arrives packet r) [answer] shown].
(** It is answered when the user has read and approved: they only press right, the cards
    [seen] are displayed, then they press both buttons where Approve is displayed, and that
    is when the one answer comes. *)
Definition answered_when_read (packet : bytes) (r : rnd) (answer : bytes) (seen : list card) (tr : list moment) : Prop :=
  exists tr' m n q, tr = tr' ++ [m] /\ map mo_act tr' = Arrives packet r :: repeat (Presses RIGHT) n /\ concat (map mo_sent tr') = [] /\
    shown_last tr' (Some (C_APPROVE, q)) /\ mo_act m = Presses BOTH /\ mo_sent m = [answer] /\
    forall c, In c seen -> exists p, was_shown tr' c p.
(** The card of the application token, if the request carries one. *)
Definition token_cards (token : N) : list card := if token =? 0 then [] else [C_TEXT (str "Application") (token_text token)].
