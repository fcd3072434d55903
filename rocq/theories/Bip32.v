(** src/common/bip32_ext.c, bip32_ext.h and unit-tests/utils/bip32.c (the SDK functions).
    A path is the list of its components (uint32_t); its length is the uint8_t len. *)
From Verif Require Import Base.

Notation path := (list N) (only parsing).
Definition HARD : N := 0x80000000.
Definition MAX_BIP32_PATH : N := 10.
(** constants.h: BIP32_ERGO_COIN *)
Definition BIP32_ERGO_COIN : N := 429.

(** bip32_ext.h:9-16 *)
Inductive vtype :=
| V_COIN | V_COIN_GE2_HARD | V_ACCOUNT_E3 | V_ACCOUNT_GE3 | V_ADDRESS_E5 | V_ADDRESS_GE5.

(** bip32_ext.c:27-79.  Array reads are in bounds because of the length checks made
    before them; [nth] never sees its default on the paths that are evaluated. *)
Definition bip32_path_validate (p : path) (type coin : N) (v : vtype) : bool :=
  let len := blen p in
  let at_ i := nth i p 0 in
  if (len <=? 2) || negb (at_ 0%nat =? type) || negb (at_ 1%nat =? coin) then false
  else match v with
  | V_COIN => true
  | V_COIN_GE2_HARD => forallb (fun x => HARD <=? x) (skipn 2 p)
  | V_ACCOUNT_E3 => (len =? 3) && (HARD <=? at_ 2%nat)
  | V_ACCOUNT_GE3 => if len <? 3 then false else forallb (fun x => HARD <=? x) (skipn 2 p)
  | V_ADDRESS_E5 =>
      (len =? 5) && (HARD <=? at_ 2%nat) && ((at_ 3%nat =? 0) || (at_ 3%nat =? 1)) &&
      (at_ 4%nat <? HARD)
  | V_ADDRESS_GE5 =>
      if len <? 5 then false
      else if at_ 2%nat <? HARD then false
      else if negb (at_ 3%nat =? 0) && negb (at_ 3%nat =? 1) then false
      else forallb (fun x => x <? HARD) (skipn 4 p)
  end.

Definition ergo_path_validate (p : path) (v : vtype) : bool :=
  bip32_path_validate p (HARD + 44) (HARD + BIP32_ERGO_COIN) v.

(** The path array as memory: little-endian uint32_t (ARM). *)
Definition le32 (x : N) : bytes :=
  [x mod 256; (x / 256) mod 256; (x / 65536) mod 256; (x / 16777216) mod 256].
Definition path_memory (p : path) : bytes := concat (map le32 p).

(** bip32_ext.h:24-30: memcmp of [len] BYTES, not components. *)
Definition bip32_path_is_equal (p q : path) : bool :=
  Nat.eqb (length p) (length q) &&
  bytes_eqb (firstn (length p) (path_memory p)) (firstn (length p) (path_memory q)).

(** bip32_ext.h:32-38: memcmp of 3 BYTES. *)
Definition bip32_path_same_account (p q : path) : bool :=
  (3 <=? blen p) && (3 <=? blen q) &&
  bytes_eqb (firstn 3 (path_memory p)) (firstn 3 (path_memory q)).

(** unit-tests/utils/bip32.c:26-43 with the caller's buffer_seek_cur
    (unit-tests/utils/buffer.c:141-151). *)
Fixpoint read_u32s (n : nat) (l : bytes) : option (list N * bytes) :=
  match n with
  | O => Some ([], l)
  | S k => match read_u32 l with
           | None => None
           | Some (x, r) => match read_u32s k r with
                            | None => None
                            | Some (xs, r') => Some (x :: xs, r')
                            end
           end
  end.
Definition read_bip32_path (n : N) (l : bytes) : option (path * bytes) :=
  if (n =? 0) || (MAX_BIP32_PATH <? n) then None else read_u32s (N.to_nat n) l.

(** "%u" of an unsigned value: decimal digits, most significant first. *)
Fixpoint dec_loop (fuel : nat) (n : N) (acc : text) : text :=
  match fuel with
  | O => acc
  | S k => let acc := (48 + n mod 10) :: acc in
           if n / 10 =? 0 then acc else dec_loop k (n / 10) acc
  end.
(** Enough for any uint64_t (20 digits). *)
Definition dec (n : N) : text := dec_loop 20 n [].

(** One snprintf into the rest of the buffer followed by the strlen check
    (bip32.c:56-62, 65-71, 75-81): snprintf keeps at most [room - 1] characters, and
    the check only rejects an empty result or one that fills the room entirely. *)
Definition put_piece (cap : nat) (out : text) (piece : text) : option text :=
  let room := (cap - length out)%nat in
  let w := firstn (room - 1) piece in
  if Nat.eqb (length w) 0 || Nat.leb room (length w) then None else Some (out ++ w).

(** bip32.c:53-83: the loop over the components. *)
Fixpoint path_format_loop (cap : nat) (p : path) (out : text) : option text :=
  match p with
  | [] => Some out
  | x :: t =>
      match put_piece cap out (dec (N.land x 0x7FFFFFFF)) with
      | None => None
      | Some out =>
          match (if N.land x HARD =? 0 then Some out else put_piece cap out [39]) with
          | None => None
          | Some out =>
              match t with
              | [] => Some out
              | _ => match put_piece cap out [47] with
                     | None => None
                     | Some out => path_format_loop cap t out
                     end
              end
          end
      end
  end.
(** bip32.c:45-86.  [cap] is the size of the destination including the NUL. *)
Definition bip32_path_format (cap : nat) (p : path) : option text :=
  if (blen p =? 0) || (MAX_BIP32_PATH <? blen p) then None else path_format_loop cap p [].
