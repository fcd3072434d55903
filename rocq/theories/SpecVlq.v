(** Specification of Ergo's variable-length integers, independent of the code:
    groups of seven bits, least significant first; bit 7 says that more follow. *)
From Verif Require Import Base.

Inductive is_vlq : N -> bytes -> Prop :=
| vlq_last : forall n, n < 128 -> is_vlq n [n]
| vlq_more : forall n l, 128 <= n -> is_vlq (n / 128) l -> is_vlq n (n mod 128 + 128 :: l).

(** The same as a function. *)
Fixpoint vlq_aux (fuel : nat) (n : N) : bytes :=
  match fuel with
  | O => [n]
  | S k => if n <? 128 then [n] else (n mod 128 + 128) :: vlq_aux k (n / 128)
  end.
Definition vlq (n : N) : bytes := vlq_aux (N.size_nat n) n.

(** ZigZag: 0, -1, 1, -2, 2 ... are numbered 0, 1, 2, 3, 4 ... *)
Definition zigzag (z : Z) : N := Z.to_N (if 0 <=? z then 2 * z else -2 * z - 1)%Z.
