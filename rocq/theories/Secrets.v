(** src/helpers/crypto.c and src/ergo/schnorr.c with primitives that may fail, and with what
    each call leaves in its local buffers.  The main model (Schnorr.v, Env.v) is the case
    without failures of the hash and the modular arithmetic; SecretsProofs.v relates the
    two. *)
From Coq Require Import String.
From Verif Require Import Base Env ErgoTree Schnorr.

(** One call to each primitive of the SDK.  The first component is its cx_err_t code (32
    bits, 0 is CX_OK); the rest is what it has written through its pointers, whatever the
    code. *)
Record sdk := mk_sdk {
  (** os_derive_bip32_no_throw: path to the 64-byte key buffer and the chain code. *)
  k_derive : list N -> N * (bytes * bytes);
  (** cx_ecfp_init_private_key_no_throw: 32 raw bytes to the field [d] of the key. *)
  k_init_key : bytes -> N * bytes;
  (** cx_ecfp_generate_pair_no_throw, keeping the private key: [d] to the field [W]. *)
  k_pair : bytes -> N * bytes;
  (** cx_blake2b_init_no_throw: the state of the context, as the bytes hashed so far;
      cx_hash_no_throw with data, given the state before; cx_hash_no_throw with CX_LAST. *)
  k_hash_init : N * bytes;
  k_hash_update : bytes -> bytes -> N * bytes;
  k_hash_final : bytes -> N * bytes;
  (** cx_math_cmp_no_throw: code and difference. *)
  k_cmp : bytes -> bytes -> N * Z;
  (** cx_ecfp_scalar_mult_no_throw: point and scalar to the point buffer. *)
  k_mul : bytes -> bytes -> N * bytes;
  (** cx_math_multm_no_throw, cx_math_addm_no_throw: two operands and the modulus. *)
  k_multm : bytes -> bytes -> bytes -> N * bytes;
  k_addm : bytes -> bytes -> bytes -> N * bytes }.

Definition zeros (n : nat) : bytes := repeat 0 n.
(** Local buffers at the return of a call, by name. *)
Definition frame := list (string * bytes).

(** crypto.c:24-47 (crypto_derive_private_key).  [d]: the key structure before.  Result:
    code, key, chain code, frame.  The code is truncated to 16 bits (crypto.c:37, 46). *)
Definition derive_private_key (K : sdk) (p : list N) (d : bytes) : N * bytes * bytes * frame :=
  let '(e, (raw, chain)) := k_derive K p in
  if negb (e =? 0) then (u16 e, d, chain, [("raw_private_key"%string, raw)])
  else let '(e, d) := k_init_key K (firstn 32 raw) in
       (u16 e, d, chain, [("raw_private_key"%string, zeros 64)]).

(** crypto.c:49-65 (crypto_generate_private_key).  [out]: the caller's buffer before.
    Result: code, that buffer, frames of this call and the one above. *)
Definition generate_private_key (K : sdk) (p : list N) (out : bytes) : N * bytes * frame :=
  let '(e, d, chain, f) := derive_private_key K p (zeros 32) in
  (e, if e =? 0 then d else out, (f ++ [("ecfp_private_key"%string, zeros 32); ("chain_code"%string, zeros 32)])).

(** crypto.c:67-79 (crypto_init_public_key); [out]: the raw public key before. *)
Definition init_public_key (K : sdk) (d out : bytes) : N * bytes :=
  let '(e, w) := k_pair K d in (u16 e, if e =? 0 then w else out).

(** crypto.c:81-106 (crypto_generate_public_key).  [own]: the caller wants the chain code.
    Result: code, raw public key, chain code if wanted, frames. *)
Definition generate_public_key_k (K : sdk) (p : list N) (out : bytes) (own : bool) : N * bytes * option bytes * frame :=
  let '(e, d, chain, f) := derive_private_key K p (zeros 32) in
  let '(e, out) := if e =? 0 then init_public_key K d out else (e, out) in
  (e, out, if own then Some chain else None,
   (f ++ ("private_key"%string, zeros 32) :: if own then [] else [("temp_chain_code"%string, zeros 32)])).

(** schnorr.c:10-17 *)
Definition SECP256K1_G : bytes :=
  [0x79; 0xbe; 0x66; 0x7e; 0xf9; 0xdc; 0xbb; 0xac; 0x55; 0xa0; 0x62; 0x95; 0xce; 0x87; 0x0b; 0x07;
   0x02; 0x9b; 0xfc; 0xdb; 0x2d; 0xce; 0x28; 0xd9; 0x59; 0xf2; 0x81; 0x5b; 0x16; 0xf8; 0x17; 0x98;
   0x48; 0x3a; 0xda; 0x77; 0x26; 0xa3; 0xc4; 0x65; 0x5d; 0xa4; 0xfb; 0xfc; 0x0e; 0x11; 0x08; 0xa8;
   0xfd; 0x17; 0xb4; 0x48; 0xa6; 0x85; 0x54; 0x19; 0x9c; 0x47; 0xd0; 0x8f; 0xfb; 0x10; 0xd4; 0xb8].
(** The group order as bytes (schnorr.c:19-22). *)
Definition ORDER_BYTES : bytes := be_bytes 32 SECP256K1_N.

(** schnorr.c:42-45, 64-67: the scalar is refused. *)
Definition scalar_refused (K : sdk) (k : bytes) : bool :=
  (be_value k =? 0) || (let '(e, diff) := k_cmp K k ORDER_BYTES in negb (e =? 0) || (0 <? diff)%Z).
(** helpers/blake2b.c:7-9: the context after the update, if it succeeds. *)
Definition update (K : sdk) (hash data : bytes) : option bytes :=
  let '(e, hash) := k_hash_update K hash data in if e =? 0 then Some hash else None.
(** schnorr.c:48-53 and 70-75: multiply the generator and compress in place; the first
    byte of the buffer becomes 2 or 3. *)
Definition point_of (K : sdk) (k : bytes) : option bytes :=
  let '(e, w) := k_mul K (0x04 :: SECP256K1_G) k in if e =? 0 then Some (compress w) else None.

(** schnorr.c:34-81: one round, left at the first failure ([None]; the buffer [buf] is
    wiped after every round, schnorr.c:83).  [key]: the nonce buffer before; [nonce]: what
    cx_rng draws.  Result: hash stream if the round succeeds, nonce buffer. *)
Definition sign_round (K : sdk) (secret nonce key : bytes) : option bytes * bytes :=
  if negb (fst (k_hash_init K) =? 0) then (None, key)
  else match update K (snd (k_hash_init K)) SCHNORR_PREFIX with
  | None => (None, key)
  | Some h =>
    if scalar_refused K secret then (None, key)
    else match point_of K secret with
    | None => (None, key)
    | Some pk => match update K h pk with
      | None => (None, key)
      | Some h => match update K h SCHNORR_SUFFIX with
        | None => (None, key)
        | Some h =>
          if scalar_refused K nonce then (None, nonce)
          else match point_of K nonce with
          | None => (None, nonce)
          | Some w => (update K h w, nonce)
          end
        end
      end
    end
  end.
(** schnorr.c:28-88.  [Ks]: the primitives as they behave in the successive rounds. *)
Fixpoint sign_init_loop (Ks : nat -> sdk) (secret : bytes) (rounds : nat) (i : nat) (nonces : list bytes) (key : bytes)
  : option bytes * bytes :=
  match rounds with
  | O => (None, key)
  | S k => match sign_round (Ks i) secret (hd (zeros 32) nonces) key with
           | (Some h, key) => (Some h, key)
           | (None, key) => sign_init_loop Ks secret k (S i) (tl nonces) key
           end
  end.
Definition sign_init (Ks : nat -> sdk) (secret : bytes) (nonces : list bytes) (key : bytes) : option bytes * bytes * frame :=
  (sign_init_loop Ks secret MAX_ITERATIONS 0 nonces key, [("buf"%string, zeros 65)]).

(** schnorr.c:90-118.  [junk]: the 65 bytes of [buf] before (it is not initialised);
    [sig]: the 56 bytes of the caller's buffer.  Result: success, signature buffer, frame.
    The hash is written over the first 32 bytes of the signature, the sum over the last 32. *)
Definition sign_finish (K : sdk) (hash secret key junk sig : bytes) : bool * bytes * frame :=
  let '(e, h) := k_hash_final K hash in
  let sig := h ++ skipn 32 sig in
  if negb (e =? 0) then (false, sig, [("buf"%string, junk)])
  else
    let c := zeros 8 ++ firstn 24 h in
    if be_value c =? 0 then (false, sig, [("buf"%string, c ++ skipn 32 junk)])
    else
      let '(e, m) := k_multm K c secret ORDER_BYTES in
      if negb (e =? 0) then (false, sig, [("buf"%string, m ++ skipn 32 junk)])
      else
        let '(e, z) := k_addm K key m ORDER_BYTES in
        let sig := firstn 24 sig ++ z in
        if negb (e =? 0) then (false, sig, [("buf"%string, m ++ skipn 32 junk)])
        else (true, sig, [("buf"%string, zeros 65)]).

(** stx_op_p2pk.c:80-91: the cryptographic part of the start of a signing session.
    [key]: the context's nonce before; [junk]: [secret] before.  Result: hash stream
    ([None] is SW_INTERNAL_CRYPTO_ERROR), the context's nonce, frames. *)
Definition start_secrets (K : sdk) (Ks : nat -> sdk) (p : list N) (nonces : list bytes) (key junk : bytes) : option bytes * bytes * frame :=
  let '(e, secret, f) := generate_private_key K p junk in
  if negb (e =? 0) then (None, key, (f ++ [("secret"%string, zeros 32)]))
  else
    let '(r, key, g) := sign_init Ks secret nonces key in
    (r, match r with Some _ => key | None => zeros 32 end, (f ++ g ++ [("secret"%string, zeros 32)])).

(** stx_op_p2pk.c:395-412: the cryptographic part of the final approval.  [hash], [key]:
    the context; [junk], [junk'], [sig]: [secret], [buf] and the signature buffer before.
    Result: signature ([None]: SW_INTERNAL_CRYPTO_ERROR or SW_SCHNORR_SIGNING_FAILED), the
    context's nonce, frames. *)
Definition finish_secrets (K : sdk) (p : list N) (hash key junk junk' sig : bytes) : option bytes * bytes * frame :=
  let '(e, secret, f) := generate_private_key K p junk in
  if negb (e =? 0) then (None, zeros 32, (f ++ [("secret"%string, secret)]))
  else
    let '(ok, sig, g) := sign_finish K hash secret key junk' sig in
    (if ok then Some sig else None, zeros 32, (f ++ g ++ [("secret"%string, zeros 32)])).
