(** src/common/safeint.h: overflow-checked arithmetic. *)
From Verif Require Import Base.

(** Outcome of a checked operation: [false] return, [true] with a value, or
    undefined behaviour (signed overflow in the C expression). *)
Inductive chk (A : Type) := ChkFail | ChkOk (v : A) | ChkUB.
Arguments ChkFail {A}. Arguments ChkOk {A}. Arguments ChkUB {A}.

(** safeint.h:6-10 *)
Definition checked_add_u64 (l r : N) : chk N :=
  if UINT64_MAX - l <? r then ChkFail else ChkOk (u64 (l + r)).

(** safeint.h:12-16 *)
Definition checked_sub_u64 (l r : N) : chk N :=
  if l <? r then ChkFail else ChkOk (u64 (l - r)).

(** safeint.h:18-28.  [(uint64_t) -l] negates an int64_t, undefined for INT64_MIN.
    [r + l] and [l + r] are uint64_t additions of the converted [l], stored back as int64_t. *)
Definition checked_add_i64 (l : Z) (r : N) : chk Z :=
  let sum := u64 (r + u64_of_z l) in
  if (l <? 0)%Z then
    if (l =? -9223372036854775808)%Z then ChkUB
    else if (u64_of_z (- l) <=? r) && (INT64_MAX <? sum) then ChkFail
    else ChkOk (z_of_u64 sum)
  else
    if (INT64_MAX <? r) || (INT64_MAX - r <? u64_of_z l) then ChkFail
    else ChkOk (z_of_u64 sum).

(** safeint.h:30-40.  [r - l] is a uint64_t subtraction. *)
Definition checked_sub_i64 (l : Z) (r : N) : chk Z :=
  let diff := u64 (r + two64 - u64_of_z l) in
  let out := z_of_u64 (u64 (u64_of_z l + two64 - r)) in
  if (l <? 0)%Z then
    if (INT64_MAX <? r) || (INT64_MAX + 1 <? diff) then ChkFail else ChkOk out
  else
    if (u64_of_z l <? r) && (INT64_MAX + 1 <? diff) then ChkFail else ChkOk out.
