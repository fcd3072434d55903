(** The two standard scripts, byte for byte. *)
From Verif Require Import Base.

(** Pay to public key: 00 08 cd and the compressed key (02/03 and 32 bytes). *)
Definition is_p2pk_tree (pk tree : bytes) : Prop :=
  tree = [0x00; 0x08; 0xcd] ++ pk /\ length pk = 33%nat /\ (hd 0 pk = 0x02 \/ hd 0 pk = 0x03).
(** Pay to script hash: fixed prefix, 24 bytes of hash, fixed suffix. *)
Definition is_p2sh_tree (hash tree : bytes) : Prop :=
  tree = [0x00; 0xea; 0x02; 0xd1; 0x93; 0xb4; 0xcb; 0xe4; 0xe3;
          0x01; 0x0e; 0x04; 0x00; 0x04; 0x30; 0x0e; 0x18] ++ hash ++ [0xd4; 0x08; 0x01] /\
  length hash = 24%nat.
(** SEC1 compression of an uncompressed key 04 x y. *)
Definition compressed (raw : bytes) : bytes :=
  (if N.odd (last raw 0) then 0x03 else 0x02) :: firstn 32 (tl raw).
