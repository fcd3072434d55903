(** How the application uses the hash: start, feed any number of pieces, finish. *)
From Verif Require Import Base SafeInt Blake2b.
From Verif Require Export SpecBlake.

(** [fed s pieces s']: every call of blake2b_update on [pieces], in order, succeeds, and
    leads from [s] to [s']. *)
Inductive fed : b2state -> list bytes -> b2state -> Prop :=
  | fed_nothing : forall s, fed s [] s
  | fed_piece : forall s s1 s2 p t, blake2b_update s p = ChkOk s1 -> fed s1 t s2 -> fed s (p :: t) s2.

(** Strings of bytes. *)
Definition string_of_bytes (l : list N) : Prop := Forall (fun b => b < 256) l.
