(** src/ergo/schnorr.c *)
From Verif Require Import Base Env ErgoTree.

(** schnorr.c:19-22 *)
Definition SECP256K1_N : N :=
  0xfffffffffffffffffffffffffffffffebaaedce6af48a03bbfd25e8cd0364141.
(** schnorr.c:24-26 *)
Definition SCHNORR_PREFIX : bytes := [0x01; 0x00; 0x27; 0x10; 0x01; 0x08; 0xcd].
Definition SCHNORR_SUFFIX : bytes := [0x73; 0x00; 0x00; 0x21].
Definition MAX_ITERATIONS : nat := 100.

(** schnorr.c:42-45 and 64-67: zero, or above the group order (equality passes). *)
Definition scalar_rejected (k : bytes) : bool :=
  (be_value k =? 0) || (SECP256K1_N <? be_value k).

(** schnorr.c:34-81: one round.  [nonce] is the outcome of cx_rng for this round.
    Returns the hash stream and the nonce kept in [key]. *)
Definition schnorr_round (E : env) (secret nonce : bytes) : option (bytes * bytes) :=
  if scalar_rejected secret then None
  else match e_mulG E secret with
  | None => None
  | Some pk =>
      if scalar_rejected nonce then None
      else match e_mulG E nonce with
      | None => None
      | Some w => Some (SCHNORR_PREFIX ++ compress pk ++ SCHNORR_SUFFIX ++ compress w, nonce)
      end
  end.

(** schnorr.c:28-88: [nonces] are the successive draws of cx_rng (at most 100 are
    used; a missing one is all zero, which is rejected). *)
Fixpoint schnorr_init_loop (E : env) (secret : bytes) (rounds : nat) (nonces : list bytes)
  : option (bytes * bytes) :=
  match rounds with
  | O => None
  | S k => match schnorr_round E secret (hd (repeat 0 32) nonces) with
           | Some r => Some r
           | None => schnorr_init_loop E secret k (tl nonces)
           end
  end.
Definition schnorr_sign_init (E : env) (secret : bytes) (nonces : list bytes)
  : option (bytes * bytes) := schnorr_init_loop E secret MAX_ITERATIONS nonces.

(** schnorr.c:90-118.  The modular routines of the SDK are modelled as exact and not
    failing. *)
Definition schnorr_sign_finish (E : env) (hash secret key : bytes) : option bytes :=
  let c24 := firstn 24 (e_blake E hash) in
  let c := be_value c24 in
  if c =? 0 then None
  else
    let m := (c * be_value secret) mod SECP256K1_N in
    let z := (be_value key + m) mod SECP256K1_N in
    Some (c24 ++ be_bytes 32 z).
