(** src/common/gve.c, gve.h: variable-length integers.  Readers work on the list of
    remaining bytes; writers return the bytes appended (the destination buffer of
    every caller is at least 10 bytes, see [gve_put_u64_len] for the bound). *)
From Verif Require Import Base Zigzag.

(** gve.h:15 *)
Inductive gve_err := GVE_ERR_INT_TO_BIG | GVE_ERR_DATA_SIZE.
Inductive gve_res (A : Type) :=
| GveOk (v : A) (rest : bytes)
| GveErr (e : gve_err).
Arguments GveOk {A}. Arguments GveErr {A}.

(** gve.c:79-84: the do/while loop.  A uint64_t needs at most 10 rounds, the size of
    [out]; [fuel] counts the free slots of [out] and a write past it would be [None]. *)
Fixpoint gve_put_loop (fuel : nat) (val : N) : option bytes :=
  match fuel with
  | O => None
  | S k =>
      let b := N.land val 127 in
      let v := N.shiftr val 7 in
      if v =? 0 then Some [b]
      else match gve_put_loop k v with
           | Some t => Some (N.lor b 128 :: t)
           | None => None
           end
  end.
(** gve.c:76-86 *)
Definition gve_put_u64_opt (val : N) : option bytes := gve_put_loop 10 val.
Definition gve_put_u64 (val : N) : bytes :=
  match gve_put_u64_opt val with Some l => l | None => [] end.
(** gve.h:38-40, 58-60, 46-48 *)
Definition gve_put_u32 (val : N) : bytes := gve_put_u64 val.
Definition gve_put_u16 (val : N) : bytes := gve_put_u64 val.
Definition gve_put_u8 (val : N) : bytes := [val].
(** gve.h:34-36, 42-44, 54-56 *)
Definition gve_put_i64 (val : Z) : bytes := gve_put_u64 (zigzag_encode_i64 val).
Definition gve_put_i32 (val : Z) : bytes := gve_put_u64 (zigzag_encode_i32 val).
Definition gve_put_i16 (val : Z) : bytes := gve_put_u32 (u32 (zigzag_encode_i32 val)).

(** gve.c:64-72: one iteration per value of [shift] (0,7,..,63); after the tenth
    continuation byte the loop ends with [res] still GVE_OK. *)
Fixpoint gve_get_loop (fuel : nat) (shift val : N) (l : bytes) : gve_res N :=
  match fuel with
  | O => GveOk val l
  | S k =>
      match read_u8 l with
      | None => GveErr GVE_ERR_DATA_SIZE
      | Some (b, r) =>
          let v := N.lor val (u64 (N.shiftl (N.land b 127) shift)) in
          if N.land b 128 =? 0 then GveOk v r
          else gve_get_loop k (shift + 7) v r
      end
  end.
(** gve.c:59-74 *)
Definition gve_get_u64 (l : bytes) : gve_res N := gve_get_loop 10 0 0 l.

(** gve.c:20-28, 40-48 *)
Definition gve_get_upto (max : N) (l : bytes) : gve_res N :=
  match gve_get_u64 l with
  | GveErr e => GveErr e
  | GveOk v r => if max <? v then GveErr GVE_ERR_INT_TO_BIG else GveOk v r
  end.
Definition gve_get_u16 := gve_get_upto 65535.
Definition gve_get_u32 := gve_get_upto 4294967295.
(** gve.h:17-19 *)
Definition gve_get_u8 (l : bytes) : gve_res N :=
  match read_u8 l with
  | Some (b, r) => GveOk b r
  | None => GveErr GVE_ERR_DATA_SIZE
  end.
(** gve.c:30-38 *)
Definition gve_get_i32 (l : bytes) : gve_res Z :=
  match gve_get_u64 l with
  | GveErr e => GveErr e
  | GveOk v r => if 4294967295 <? v then GveErr GVE_ERR_INT_TO_BIG
                 else GveOk (zigzag_decode_i32 v) r
  end.
(** gve.c:10-18 *)
Definition gve_get_i16 (l : bytes) : gve_res Z :=
  match gve_get_i32 l with
  | GveErr e => GveErr e
  | GveOk v r => if i16_ok v then GveOk v r else GveErr GVE_ERR_INT_TO_BIG
  end.
(** gve.c:50-57 *)
Definition gve_get_i64 (l : bytes) : gve_res Z :=
  match gve_get_u64 l with
  | GveErr e => GveErr e
  | GveOk v r => GveOk (zigzag_decode_i64 v) r
  end.
