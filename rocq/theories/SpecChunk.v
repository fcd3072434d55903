(** Data sent in several pieces. *)
From Verif Require Import Base TxTable TxBox.

(** Call the serializer with each piece in turn; [None] as soon as one is refused. *)
Fixpoint feed {S} (call : S -> bytes -> res * S) (s : S) (pieces : list bytes) : option S :=
  match pieces with
  | [] => Some s
  | x :: t => let '(r, s') := call s x in if res_pass r then feed call s' t else None
  end.
