(** src/ergo/ergo_tree.c and ergo_tree.h: the scripts the device knows. *)
From Verif Require Import Base.

(** ergo_tree.c:7 *)
Definition P2PK_PREFIX : bytes := [0x00; 0x08; 0xcd].
(** ergo_tree.c:10-13 *)
Definition P2SH_PREFIX : bytes :=
  [0x00; 0xea; 0x02; 0xd1; 0x93; 0xb4; 0xcb; 0xe4; 0xe3;
   0x01; 0x0e; 0x04; 0x00; 0x04; 0x30; 0x0e; 0x18].
(** ergo_tree.c:16 *)
Definition P2SH_SUFFIX : bytes := [0xd4; 0x08; 0x01].
(** ergo_tree.c:18-25 *)
Definition MINERS_FEE_TREE : bytes :=
  [0x10; 0x05; 0x04; 0x00; 0x04; 0x00; 0x0e; 0x36; 0x10; 0x02; 0x04; 0xa0; 0x0b; 0x08; 0xcd;
   0x02; 0x79; 0xbe; 0x66; 0x7e; 0xf9; 0xdc; 0xbb; 0xac; 0x55; 0xa0; 0x62; 0x95; 0xce; 0x87;
   0x0b; 0x07; 0x02; 0x9b; 0xfc; 0xdb; 0x2d; 0xce; 0x28; 0xd9; 0x59; 0xf2; 0x81; 0x5b; 0x16;
   0xf8; 0x17; 0x98; 0xea; 0x02; 0xd1; 0x92; 0xa3; 0x9a; 0x8c; 0xc7; 0xa7; 0x01; 0x73; 0x00;
   0x73; 0x01; 0x10; 0x01; 0x02; 0x04; 0x02; 0xd1; 0x96; 0x83; 0x03; 0x01; 0x93; 0xa3; 0x8c;
   0xc7; 0xb2; 0xa5; 0x73; 0x00; 0x00; 0x01; 0x93; 0xc2; 0xb2; 0xa5; 0x73; 0x01; 0x00; 0x74;
   0x73; 0x02; 0x73; 0x03; 0x83; 0x01; 0x08; 0xcd; 0xee; 0xac; 0x93; 0xb1; 0xa5; 0x73; 0x04].

Definition ERGO_TREE_P2PK_LEN : nat := 36.
Definition ERGO_TREE_P2SH_LEN : nat := 44.
Definition PUBLIC_KEY_LEN : nat := 65.
Definition COMPRESSED_PUBLIC_KEY_LEN : nat := 33.
Definition P2SH_HASH_LEN : nat := 24.

(** SEC1 compression as written in ergo_tree.c:44-45, address.c:36-39, schnorr.c and
    epk_response: parity byte of y, then the 32 bytes of x, of the 65-byte raw key. *)
Definition compress (raw : bytes) : bytes :=
  (if N.land (nth 64 raw 0) 1 =? 0 then 0x02 else 0x03) :: firstn 32 (skipn 1 raw).

(** ergo_tree.c:36-46 *)
Definition ergo_tree_generate_p2pk (raw : bytes) : bytes := P2PK_PREFIX ++ compress raw.

(** ergo_tree.c:48-58 (the caller guarantees 36 bytes). *)
Definition ergo_tree_parse_p2pk (tree : bytes) : option bytes :=
  if negb (bytes_eqb (firstn 3 tree) P2PK_PREFIX) then None
  else if negb (nth 3 tree 0 =? 0x02) && negb (nth 3 tree 0 =? 0x03) then None
  else Some (firstn 33 (skipn 3 tree)).

(** ergo_tree.c:60-72 (the caller guarantees 44 bytes). *)
Definition ergo_tree_parse_p2sh (tree : bytes) : option bytes :=
  if negb (bytes_eqb (firstn 17 tree) P2SH_PREFIX) then None
  else if negb (bytes_eqb (firstn 3 (skipn 41 tree)) P2SH_SUFFIX) then None
  else Some (firstn 24 (skipn 17 tree)).

(** ergo_tree.c:74-83: the network argument is unused. *)
Definition ergo_tree_miners_fee_tree (is_mainnet : bool) : bytes := MINERS_FEE_TREE.
