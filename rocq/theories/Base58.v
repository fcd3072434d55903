(** unit-tests/utils/base58.c:109-158 (the SDK's base58_encode). *)
From Coq Require Import String.
From Verif Require Import Base.

(** base58.c:39-44 *)
Definition BASE58_ALPHABET : text :=
  str "123456789ABCDEFGHJKLMNPQRSTUVWXYZabcdefghijkmnopqrstuvwxyz".

Definition MAX_ENC_INPUT_SIZE : N := 120.
(** size_t arithmetic (32-bit) of [stop_at - 1] and of a loop index that ran past 0. *)
Definition SIZE_MAX : N := 4294967295.
Definition size_dec (x : N) : N := if x =? 0 then SIZE_MAX else x - 1.

(** base58.c:121-123 *)
Fixpoint count_zeros (l : bytes) : nat :=
  match l with
  | 0 :: t => S (count_zeros t)
  | _ => O
  end.

(** base58.c:129-137: inner loop.  [digits] are the buffer cells from index [j] down to
    0 (least significant first).  Returns the new cells and the final [j]. *)
Fixpoint b58_inner (digits : list N) (j carry stop_at : N) : list N * N :=
  match digits with
  | [] => ([], SIZE_MAX)
  | d :: t =>
      let c := carry + 256 * d in
      let d' := c mod 58 in
      let c' := c / 58 in
      if (j <=? size_dec stop_at) && (c' =? 0) then (d' :: t, j)
      else let '(t', e) := b58_inner t (size_dec j) c' stop_at in (d' :: t', e)
  end.

(** base58.c:127-139: outer loop over the remaining input bytes. *)
Fixpoint b58_outer (input : bytes) (digits : list N) (last stop_at : N) : list N :=
  match input with
  | [] => digits
  | b :: t =>
      let '(digits', j) := b58_inner digits last b stop_at in
      b58_outer t digits' last j
  end.

Fixpoint drop_zeros (l : list N) : list N :=
  match l with
  | 0 :: t => drop_zeros t
  | _ => l
  end.

(** base58.c:109-158.  [out_len] is the destination size; no NUL is written. *)
Definition base58_encode (input : bytes) (out_len : nat) : option text :=
  if MAX_ENC_INPUT_SIZE <? blen input then None
  else
    let zeros := count_zeros input in
    let body := skipn zeros input in
    let output_size := blen body * 138 / 100 + 1 in
    let digits := b58_outer body (repeat 0 (N.to_nat output_size))
                            (output_size - 1) (output_size - 1) in
    let sig := drop_zeros (rev digits) in
    let out := repeat (nth 0 BASE58_ALPHABET 0) zeros ++
               map (fun d => nth (N.to_nat d) BASE58_ALPHABET 0) sig in
    if Nat.ltb out_len (length out) then None else Some out.
