(** src/ergo/address.c, src/ergo/network_id.h: raw addresses. *)
From Verif Require Import Base ErgoTree.

(** network_id.h:6-20 *)
Definition network_id_is_mainnet (n : N) : bool := n =? 0x00.
Definition network_id_is_testnet (n : N) : bool := n =? 0x10.
Definition network_id_is_valid (n : N) : bool := n <=? 252.
Definition network_id_is_supported (n : N) : bool :=
  network_id_is_mainnet n || network_id_is_testnet n.

Section Address.
  (** blake2b-256, external. *)
  Variable blake : bytes -> bytes.

  (** The common tail of address.c:16-55 and 69-92: type+network byte (uint8_t),
      content, first 4 bytes of the hash of both. *)
  Definition address_of (type network : N) (content : bytes) : option bytes :=
    if negb (network_id_is_valid network) then None
    else let body := u8 (type + network) :: content in
         Some (body ++ firstn 4 (blake body)).

  (** address.c:57-61 *)
  Definition ergo_address_from_pubkey (network : N) (raw : bytes) : option bytes :=
    address_of 1 network (compress raw).
  (** address.c:63-67 *)
  Definition ergo_address_from_compressed_pubkey (network : N) (pk : bytes) : option bytes :=
    address_of 1 network pk.
  (** address.c:69-92 *)
  Definition ergo_address_from_script_hash (network : N) (hash : bytes) : option bytes :=
    address_of 2 network (firstn 24 hash).
End Address.
