(** BLAKE2b as the repository has it (unit-tests/utils/blake2b-ref.c, the stand-in for the
    platform's hash), and helpers/blake2b.c over it.  Unkeyed, so last_node is 0. *)
From Verif Require Import Base RwBuffer SafeInt.

(** unit-tests/utils/blake2-impl.h:148-151, on a uint64_t *)
Definition rotr64 (w c : N) : N := N.lor (N.shiftr w c) (u64 (N.shiftl w (64 - c))).
(** blake2-impl.h:55-63 and 109-117 *)
Definition load64 (p : bytes) : N :=
  fold_left N.lor (map (fun i => N.shiftl (nth i p 0) (8 * N.of_nat i)) (seq 0 8)) 0.
Definition store64 (w : N) : bytes := map (fun i => u8 (N.shiftr w (8 * N.of_nat i))) (seq 0 8).

(** blake2b-ref.c:23-30 *)
Definition blake2b_IV : list N :=
  [0x6a09e667f3bcc908; 0xbb67ae8584caa73b; 0x3c6ef372fe94f82b; 0xa54ff53a5f1d36f1;
   0x510e527fade682d1; 0x9b05688c2b3e6c1f; 0x1f83d9abfb41bd6b; 0x5be0cd19137e2179].
(** blake2b-ref.c:32-44 *)
Definition blake2b_sigma : list (list nat) := ([
  [0; 1; 2; 3; 4; 5; 6; 7; 8; 9; 10; 11; 12; 13; 14; 15];
  [14; 10; 4; 8; 9; 15; 13; 6; 1; 12; 0; 2; 11; 7; 5; 3];
  [11; 8; 12; 0; 5; 2; 15; 13; 10; 14; 3; 6; 7; 1; 9; 4];
  [7; 9; 3; 1; 13; 12; 11; 14; 2; 6; 5; 10; 4; 0; 15; 8];
  [9; 0; 5; 7; 2; 4; 10; 15; 14; 1; 11; 12; 6; 8; 3; 13];
  [2; 12; 6; 10; 0; 11; 8; 3; 4; 13; 7; 5; 15; 14; 1; 9];
  [12; 5; 1; 15; 14; 13; 4; 10; 0; 7; 6; 3; 9; 2; 8; 11];
  [13; 11; 7; 14; 12; 1; 3; 9; 5; 0; 15; 4; 8; 6; 2; 10];
  [6; 15; 14; 9; 11; 3; 0; 8; 12; 2; 13; 7; 1; 4; 10; 5];
  [10; 2; 8; 4; 7; 6; 1; 5; 15; 11; 9; 14; 3; 12; 13; 0];
  [0; 1; 2; 3; 4; 5; 6; 7; 8; 9; 10; 11; 12; 13; 14; 15];
  [14; 10; 4; 8; 9; 15; 13; 6; 1; 12; 0; 2; 11; 7; 5; 3]])%nat.

(** blake2b-ref.h:40-49; [b2_f1] and last_node are never set. *)
Record b2state := mk_b2 {
  b2_h : list N; b2_t0 : N; b2_t1 : N; b2_f0 : N; b2_f1 : N; b2_buf : bytes; b2_buflen : N; b2_outlen : N }.

(** blake2b-ref.c:61-64 *)
Definition blake2b_increment_counter (s : b2state) (inc : N) : b2state :=
  let t0 := u64 (b2_t0 s + inc) in
  let t1 := u64 (b2_t1 s + (if t0 <? inc then 1 else 0)) in
  mk_b2 (b2_h s) t0 t1 (b2_f0 s) (b2_f1 s) (b2_buf s) (b2_buflen s) (b2_outlen s).

(** blake2b-ref.c:66-105: blake2b_init0, blake2b_ref_init_param and blake2b_ref_init.  The
    64 bytes of the parameter block: digest length, no key, fanout and depth 1. *)
Definition blake2b_param (outlen : N) : bytes := [u8 outlen; 0; 1; 1] ++ repeat 0 60.
Definition blake2b_ref_init (outlen : N) : option b2state :=
  if (outlen =? 0) || (64 <? outlen) then None
  else
    let p := blake2b_param outlen in
    Some (mk_b2 (map (fun i => N.lxor (nth i blake2b_IV 0) (load64 (skipn (8 * i) p))) (seq 0 8))
                0 0 0 0 (repeat 0 128) 0 (nth 0 p 0)).

(** blake2b-ref.c:139-149: the macro G on v[a], v[b], v[c], v[d] with the words x and y of
    the block. *)
Definition vget (v : list N) (i : nat) : N := nth i v 0.
Definition vset (v : list N) (i : nat) (x : N) : list N := firstn i v ++ x :: skipn (S i) v.
Definition blake2b_G (x y : N) (a b c d : nat) (v : list N) : list N :=
  let v := vset v a (u64 (u64 (vget v a + vget v b) + x)) in
  let v := vset v d (rotr64 (N.lxor (vget v d) (vget v a)) 32) in
  let v := vset v c (u64 (vget v c + vget v d)) in
  let v := vset v b (rotr64 (N.lxor (vget v b) (vget v c)) 24) in
  let v := vset v a (u64 (u64 (vget v a + vget v b) + y)) in
  let v := vset v d (rotr64 (N.lxor (vget v d) (vget v a)) 16) in
  let v := vset v c (u64 (vget v c + vget v d)) in
  vset v b (rotr64 (N.lxor (vget v b) (vget v c)) 63).
(** blake2b-ref.c:151-161: the macro ROUND *)
Definition blake2b_ROUND (m : list N) (v : list N) (r : nat) : list N :=
  let s k := nth (nth k (nth r blake2b_sigma []) 0%nat) m 0 in
  let v := blake2b_G (s 0%nat) (s 1%nat) 0 4 8 12 v in
  let v := blake2b_G (s 2%nat) (s 3%nat) 1 5 9 13 v in
  let v := blake2b_G (s 4%nat) (s 5%nat) 2 6 10 14 v in
  let v := blake2b_G (s 6%nat) (s 7%nat) 3 7 11 15 v in
  let v := blake2b_G (s 8%nat) (s 9%nat) 0 5 10 15 v in
  let v := blake2b_G (s 10%nat) (s 11%nat) 1 6 11 12 v in
  let v := blake2b_G (s 12%nat) (s 13%nat) 2 7 8 13 v in
  blake2b_G (s 14%nat) (s 15%nat) 3 4 9 14 v.
(** blake2b-ref.c:163-201 *)
Definition blake2b_compress (s : b2state) (block : bytes) : b2state :=
  let m := map (fun i => load64 (skipn (8 * i) block)) (seq 0 16) in
  let h := b2_h s in
  let iv i := nth i blake2b_IV 0 in
  let v := h ++ [iv 0%nat; iv 1%nat; iv 2%nat; iv 3%nat; N.lxor (iv 4%nat) (b2_t0 s); N.lxor (iv 5%nat) (b2_t1 s);
                 N.lxor (iv 6%nat) (b2_f0 s); N.lxor (iv 7%nat) (b2_f1 s)] in
  let v := fold_left (blake2b_ROUND m) (seq 0 12) v in
  let h := map (fun i => N.lxor (N.lxor (nth i h 0) (vget v i)) (vget v (i + 8))) (seq 0 8) in
  mk_b2 h (b2_t0 s) (b2_t1 s) (b2_f0 s) (b2_f1 s) (b2_buf s) (b2_buflen s) (b2_outlen s).

(** memcpy into buf; [None] would be outside the array. *)
Definition b2_copy (s : b2state) (at_ : N) (data : bytes) : option b2state :=
  match mem_put (b2_buf s) at_ data with
  | None => None
  | Some buf => Some (mk_b2 (b2_h s) (b2_t0 s) (b2_t1 s) (b2_f0 s) (b2_f1 s) buf (b2_buflen s) (b2_outlen s))
  end.
Definition b2_set_buflen (s : b2state) (n : N) : b2state :=
  mk_b2 (b2_h s) (b2_t0 s) (b2_t1 s) (b2_f0 s) (b2_f1 s) (b2_buf s) n (b2_outlen s).

(** blake2b-ref.c:218-223: one iteration per block; [fuel] is the length of the input. *)
Fixpoint blake2b_blocks (fuel : nat) (s : b2state) (data : bytes) : b2state * bytes :=
  match fuel with
  | O => (s, data)
  | S k =>
      if 128 <? blen data then
        blake2b_blocks k (blake2b_compress (blake2b_increment_counter s 128) (firstn 128 data)) (skipn 128 data)
      else (s, data)
  end.
(** blake2b-ref.c:206-229 *)
Definition blake2b_ref_update (s : b2state) (data : bytes) : chk b2state :=
  if 0 <? blen data then
    let left := b2_buflen s in
    let fill := 128 - left in
    let '(s, data) :=
      if fill <? blen data then
        match b2_copy (b2_set_buflen s 0) left (firstn (N.to_nat fill) data) with
        | None => (None, data)
        | Some s =>
            let s := blake2b_increment_counter s 128 in
            let s := blake2b_compress s (b2_buf s) in
            let '(s, data) := blake2b_blocks (length data) s (skipn (N.to_nat fill) data) in
            (Some s, data)
        end
      else (Some s, data) in
    match s with
    | None => ChkUB
    | Some s =>
        match b2_copy s (b2_buflen s) data with
        | None => ChkUB
        | Some s => ChkOk (b2_set_buflen s (b2_buflen s + blen data))
        end
    end
  else ChkOk s.

(** blake2b-ref.c:231-250, blake2b_is_lastblock and blake2b_set_lastblock (46-59) *)
Definition blake2b_ref_final (s : b2state) (outlen : N) : chk (b2state * bytes) :=
  if outlen <? b2_outlen s then ChkFail
  else if negb (b2_f0 s =? 0) then ChkFail
  else
    let s := blake2b_increment_counter s (b2_buflen s) in
    let s := mk_b2 (b2_h s) (b2_t0 s) (b2_t1 s) UINT64_MAX (b2_f1 s) (b2_buf s) (b2_buflen s) (b2_outlen s) in
    match b2_copy s (b2_buflen s) (repeat 0 (N.to_nat (128 - b2_buflen s))) with
    | None => ChkUB
    | Some s =>
        let s := blake2b_compress s (b2_buf s) in
        ChkOk (s, firstn (N.to_nat (b2_outlen s)) (flat_map store64 (b2_h s)))
    end.

(** blake2b-ref.c:253-281, without key; the results of the second and third call are not
    looked at. *)
Definition blake2b_ref (outlen : N) (data : bytes) : chk bytes :=
  match blake2b_ref_init outlen with
  | None => ChkFail
  | Some s => match blake2b_ref_update s data with
              | ChkOk s => match blake2b_ref_final s outlen with
                           | ChkOk (_, out) => ChkOk out
                           | ChkFail => ChkFail
                           | ChkUB => ChkUB
                           end
              | ChkFail => ChkFail
              | ChkUB => ChkUB
              end
  end.

(** unit-tests/utils/cx.c:14-33 (blake2_hash) behind cx_hash_no_throw (50-62): [last] for
    CX_LAST, [noreinit] for CX_NO_REINIT.  Left out: the copy of the data hashed that is kept
    for the tests, which limits a context to 65535 bytes. *)
Definition cx_hash_no_throw (s : b2state) (last noreinit : bool) (data : bytes) (outlen : N) : chk (b2state * bytes) :=
  match blake2b_ref_update s data with
  | ChkOk s =>
      if last then
        match blake2b_ref_final s outlen with
        | ChkOk (s, out) =>
            if noreinit then ChkOk (s, out)
            else match blake2b_ref_init (b2_outlen s) with Some s => ChkOk (s, out) | None => ChkFail end
        | r => r
        end
      else ChkOk (s, [])
  | ChkFail => ChkFail
  | ChkUB => ChkUB
  end.
(** helpers/blake2b.c:3-5, cx.c:35-48 *)
Definition blake2b_256_init : option b2state := blake2b_ref_init (256 / 8).
(** helpers/blake2b.c:7-9 *)
Definition blake2b_update (s : b2state) (data : bytes) : chk b2state :=
  match cx_hash_no_throw s false false data 0 with
  | ChkOk (s, _) => ChkOk s
  | ChkFail => ChkFail
  | ChkUB => ChkUB
  end.
(** helpers/blake2b.c:11-18 *)
Definition blake2b_256_finalize (s : b2state) : chk (b2state * bytes) := cx_hash_no_throw s true true [] 32.
(** helpers/blake2b.c:20-22, cx.c:64-69 *)
Definition blake2b_256 (data : bytes) : chk bytes := blake2b_ref 32 data.
