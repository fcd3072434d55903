(** Base vocabulary of the model: bytes, fixed-width arithmetic, big-endian
    fields, result codes and status words. *)
From Coq Require Import String Ascii.
From Coq Require Export List NArith ZArith Bool Lia.
Export ListNotations.
Open Scope N_scope.

(** Bytes are [N] values below 256 (C [uint8_t]); a byte string is a list. *)
Definition byte := N.
Notation bytes := (list N).

Definition is_byte (b : N) : bool := b <? 256.
Definition bytes_ok (l : bytes) : bool := forallb is_byte l.

(** [size_t] length of a byte string. *)
Definition blen {A} (l : list A) : N := N.of_nat (length l).

(** Fixed-width truncations: C conversions to uint8_t/uint16_t/uint32_t/uint64_t. *)
Definition two8 : N := 256.
Definition two16 : N := 65536.
Definition two32 : N := 4294967296.
Definition two63 : N := 9223372036854775808.
Definition two64 : N := 18446744073709551616.
Definition u8 (x : N) : N := x mod two8.
Definition u16 (x : N) : N := x mod two16.
Definition u32 (x : N) : N := x mod two32.
Definition u64 (x : N) : N := x mod two64.
Definition UINT64_MAX : N := 18446744073709551615.
Definition INT64_MAX : N := 9223372036854775807.

Definition i64_ok (z : Z) : bool :=
  ((-9223372036854775808 <=? z) && (z <=? 9223372036854775807))%Z.
Definition i32_ok (z : Z) : bool :=
  ((-2147483648 <=? z) && (z <=? 2147483647))%Z.
Definition i16_ok (z : Z) : bool :=
  ((-32768 <=? z) && (z <=? 32767))%Z.

(** Two's complement views. *)
Definition z_of_u64 (x : N) : Z :=
  if x <? two63 then Z.of_N x else (Z.of_N x - Z.of_N two64)%Z.
Definition u64_of_z (z : Z) : N := Z.to_N (z mod Z.of_N two64)%Z.
Definition z_of_u32 (x : N) : Z :=
  if x <? 2147483648 then Z.of_N x else (Z.of_N x - Z.of_N two32)%Z.
Definition u32_of_z (z : Z) : N := Z.to_N (z mod Z.of_N two32)%Z.

(** Big-endian value of a byte string, and the [n]-byte big-endian field of a value.
    Models unit-tests/utils/read.c, write.c (read_uXX_be, write_uXX_be). *)
Definition be_value (l : bytes) : N := fold_left (fun acc b => acc * 256 + b) l 0.
Fixpoint be_bytes (n : nat) (v : N) : bytes :=
  match n with
  | O => []
  | S k => be_bytes k (v / 256) ++ [v mod 256]
  end.

(** Read [n] bytes off the front of the remaining input; [None] is the C [false]
    return (buffer_can_read fails), in which case nothing is consumed.
    Models buffer_ext.c:14-19 (buffer_read_bytes) and unit-tests/utils/buffer.c:27-31. *)
Definition read_bytes (n : nat) (l : bytes) : option (bytes * bytes) :=
  if Nat.leb n (length l) then Some (firstn n l, skipn n l) else None.

(** unit-tests/utils/buffer.c:70-139 (buffer_read_u8/u16/u32/u64, big endian). *)
Definition read_be (n : nat) (l : bytes) : option (N * bytes) :=
  match read_bytes n l with
  | Some (v, r) => Some (be_value v, r)
  | None => None
  end.
Definition read_u8 := read_be 1.
Definition read_u16 := read_be 2.
Definition read_u32 := read_be 4.
Definition read_u64 := read_be 8.

(** Byte-string equality: C [memcmp(a,b,n) == 0] on equal-length strings. *)
Fixpoint bytes_eqb (a b : bytes) : bool :=
  match a, b with
  | [], [] => true
  | x :: a', y :: b' => (x =? y) && bytes_eqb a' b'
  | _, _ => false
  end.

(** Update of one array element. *)
Fixpoint set_nth {A} (i : nat) (x : A) (l : list A) : list A :=
  match l, i with
  | [], _ => []
  | _ :: t, O => x :: t
  | h :: t, S k => h :: set_nth k x t
  end.

(** Result codes of the serializers.  The C code has one enum per serializer
    (tx_ser_table.h, tx_ser_box.h, tx_ser_input.h, and tx_ser_full.h:14-37); values of the same name are translated into each other
    (tx_ser_full.c:37-119) so one inductive carries all of them.  [R_UB] is not a
    C value: it marks undefined behaviour. *)
Inductive res :=
| R_OK | R_MORE_DATA
| R_BAD_TOKEN_ID | R_BAD_TOKEN_INDEX | R_BAD_TOKEN_VALUE
| R_BAD_INPUT_ID | R_BAD_FRAME_INDEX | R_BAD_CONTEXT_EXTENSION_SIZE
| R_BAD_DATA_INPUT | R_BAD_INPUT_COUNT | R_BAD_OUTPUT_COUNT | R_BAD_STATE
| R_TOO_MANY_TOKENS | R_TOO_MANY_INPUT_FRAMES | R_TOO_MANY_INPUTS
| R_TOO_MANY_DATA_INPUTS | R_TOO_MANY_OUTPUTS | R_TOO_MUCH_DATA
| R_HASHER | R_BUFFER | R_U64_OVERFLOW | R_SMALL_CHUNK
| R_UB.

(** Status words, sw.h:4-72.  [SW_UB] is not a C value: undefined behaviour. *)
Inductive sw :=
| SW_OK | SW_DENY | SW_WRONG_P1P2 | SW_WRONG_APDU_DATA_LENGTH
| SW_INS_NOT_SUPPORTED | SW_CLA_NOT_SUPPORTED
| SW_BUSY | SW_WRONG_RESPONSE_LENGTH | SW_BAD_SESSION_ID | SW_WRONG_SUBCOMMAND
| SW_SCREENS_BUFFER_OVERFLOW | SW_BAD_STATE
| SW_BAD_TOKEN_ID | SW_BAD_TOKEN_VALUE | SW_BAD_CONTEXT_EXTENSION_SIZE
| SW_BAD_DATA_INPUT | SW_BAD_BOX_ID | SW_BAD_TOKEN_INDEX | SW_BAD_FRAME_INDEX
| SW_BAD_INPUT_COUNT | SW_BAD_OUTPUT_COUNT | SW_TOO_MANY_TOKENS
| SW_TOO_MANY_INPUTS | SW_TOO_MANY_DATA_INPUTS | SW_TOO_MANY_INPUT_FRAMES
| SW_TOO_MANY_OUTPUTS | SW_HASHER_ERROR | SW_BUFFER_ERROR | SW_U64_OVERFLOW
| SW_BIP32_BAD_PATH | SW_INTERNAL_CRYPTO_ERROR | SW_NOT_ENOUGH_DATA
| SW_TOO_MUCH_DATA | SW_ADDRESS_GENERATION_FAILED | SW_SCHNORR_SIGNING_FAILED
| SW_BAD_FRAME_SIGNATURE | SW_BAD_NET_TYPE_VALUE | SW_SMALL_CHUNK
| SW_BIP32_FORMATTING_FAILED | SW_ADDRESS_FORMATTING_FAILED
| SW_UB.

(** sw.h:4-72: numeric values. *)
Definition sw_num (s : sw) : N :=
  match s with
  | SW_OK => 0x9000 | SW_DENY => 0x6985 | SW_WRONG_P1P2 => 0x6A86
  | SW_WRONG_APDU_DATA_LENGTH => 0x6A87 | SW_INS_NOT_SUPPORTED => 0x6D00
  | SW_CLA_NOT_SUPPORTED => 0x6E00 | SW_BUSY => 0xB000
  | SW_WRONG_RESPONSE_LENGTH => 0xB001 | SW_BAD_SESSION_ID => 0xB002
  | SW_WRONG_SUBCOMMAND => 0xB003 | SW_SCREENS_BUFFER_OVERFLOW => 0xB004
  | SW_BAD_STATE => 0xB0FF
  | SW_BAD_TOKEN_ID => 0xE001 | SW_BAD_TOKEN_VALUE => 0xE002
  | SW_BAD_CONTEXT_EXTENSION_SIZE => 0xE003 | SW_BAD_DATA_INPUT => 0xE004
  | SW_BAD_BOX_ID => 0xE005 | SW_BAD_TOKEN_INDEX => 0xE006
  | SW_BAD_FRAME_INDEX => 0xE007 | SW_BAD_INPUT_COUNT => 0xE008
  | SW_BAD_OUTPUT_COUNT => 0xE009 | SW_TOO_MANY_TOKENS => 0xE00A
  | SW_TOO_MANY_INPUTS => 0xE00B | SW_TOO_MANY_DATA_INPUTS => 0xE00C
  | SW_TOO_MANY_INPUT_FRAMES => 0xE00D | SW_TOO_MANY_OUTPUTS => 0xE00E
  | SW_HASHER_ERROR => 0xE00F | SW_BUFFER_ERROR => 0xE010
  | SW_U64_OVERFLOW => 0xE011 | SW_BIP32_BAD_PATH => 0xE012
  | SW_INTERNAL_CRYPTO_ERROR => 0xE013 | SW_NOT_ENOUGH_DATA => 0xE014
  | SW_TOO_MUCH_DATA => 0xE015 | SW_ADDRESS_GENERATION_FAILED => 0xE016
  | SW_SCHNORR_SIGNING_FAILED => 0xE017 | SW_BAD_FRAME_SIGNATURE => 0xE018
  | SW_BAD_NET_TYPE_VALUE => 0xE019 | SW_SMALL_CHUNK => 0xE01A
  | SW_BIP32_FORMATTING_FAILED => 0xE101 | SW_ADDRESS_FORMATTING_FAILED => 0xE102
  | SW_UB => 0
  end.

(** helpers/sw_result.h:7-83 (sw_from_tx_full_result, sw_from_tx_box_result). *)
Definition sw_of_res (r : res) : sw :=
  match r with
  | R_OK | R_MORE_DATA => SW_OK
  | R_BAD_TOKEN_ID => SW_BAD_TOKEN_ID
  | R_BAD_TOKEN_INDEX => SW_BAD_TOKEN_INDEX
  | R_BAD_TOKEN_VALUE => SW_BAD_TOKEN_VALUE
  | R_BAD_INPUT_ID => SW_BAD_BOX_ID
  | R_BAD_FRAME_INDEX => SW_BAD_FRAME_INDEX
  | R_BAD_CONTEXT_EXTENSION_SIZE => SW_BAD_CONTEXT_EXTENSION_SIZE
  | R_BAD_DATA_INPUT => SW_BAD_DATA_INPUT
  | R_BAD_INPUT_COUNT => SW_BAD_INPUT_COUNT
  | R_BAD_OUTPUT_COUNT => SW_BAD_OUTPUT_COUNT
  | R_BAD_STATE => SW_BAD_STATE
  | R_TOO_MANY_TOKENS => SW_TOO_MANY_TOKENS
  | R_TOO_MANY_INPUT_FRAMES => SW_TOO_MANY_INPUT_FRAMES
  | R_TOO_MANY_INPUTS => SW_TOO_MANY_INPUTS
  | R_TOO_MANY_DATA_INPUTS => SW_TOO_MANY_DATA_INPUTS
  | R_TOO_MANY_OUTPUTS => SW_TOO_MANY_OUTPUTS
  | R_TOO_MUCH_DATA => SW_TOO_MUCH_DATA
  | R_HASHER => SW_HASHER_ERROR
  | R_BUFFER => SW_BUFFER_ERROR
  | R_U64_OVERFLOW => SW_U64_OVERFLOW
  | R_SMALL_CHUNK => SW_SMALL_CHUNK
  | R_UB => SW_UB
  end.

Definition sw_eqb (a b : sw) : bool := sw_num a =? sw_num b.

(** Screen text: a list of ASCII codes without the terminating NUL. *)
Notation text := (list N) (only parsing).
Fixpoint str (s : string) : text :=
  match s with
  | EmptyString => []
  | String a s' => N_of_ascii a :: str s'
  end.

(** constants.h and the other headers. *)
Definition ERGO_ID_LEN : nat := 32.
Definition TOKEN_MAX_COUNT : N := 20.
Definition INDEX_NOT_EXIST : N := 255.
Definition MAX_DATA_CHUNK_LEN : N := 255.
Definition MAX_TX_DATA_PART_LEN : N := 32768.
