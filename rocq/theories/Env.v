(** The external world the code calls into.  Nothing is assumed about these functions
    here; theorems that need their output sizes take [env_ok] as a hypothesis. *)
From Verif Require Import Base.

Record env := mk_env {
  (** blake2b-256 of a byte string (helpers/blake2b.c over cx_hash). *)
  e_blake : bytes -> bytes;
  (** HMAC-SHA256 (cx_hmac_sha256): key, data. *)
  e_hmac : bytes -> bytes -> bytes;
  (** os_derive_bip32 + cx_ecfp_init_private_key (helpers/crypto.c:24-47):
      path to private key (32 bytes) and chain code (32 bytes). *)
  e_derive : list N -> option (bytes * bytes);
  (** Multiplication of the secp256k1 generator by a 32-byte scalar, as the 65-byte
      uncompressed point: cx_ecfp_generate_pair (crypto.c:71) and
      cx_ecfp_scalar_mult on G (schnorr.c:50, 72). *)
  e_mulG : bytes -> option bytes;
  (** Number of leading (and trailing) characters kept of a long identifier on the
      device's display: 26, or 7 on Nano S (stx_ui.c). *)
  e_id_keep : nat }.

(** Output sizes of the primitives. *)
Record env_ok (E : env) : Prop := mk_env_ok {
  ok_blake_len : forall l, length (e_blake E l) = 32%nat;
  ok_blake_bytes : forall l, bytes_ok (e_blake E l) = true;
  ok_hmac_len : forall k l, length (e_hmac E k l) = 32%nat;
  ok_hmac_bytes : forall k l, bytes_ok (e_hmac E k l) = true;
  ok_derive_len : forall p s c, e_derive E p = Some (s, c) ->
    length s = 32%nat /\ length c = 32%nat /\ bytes_ok s = true /\ bytes_ok c = true;
  ok_mulG_len : forall s w, e_mulG E s = Some w -> length w = 65%nat /\ bytes_ok w = true;
  ok_id_keep : e_id_keep E = 26%nat \/ e_id_keep E = 7%nat }.
