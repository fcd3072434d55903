(** Calls into the operating system that fail, and local arrays.
    The other model files take blake2b_update & co. as never failing and write integers
    as lists of bytes.  Here every such call of one event may fail, by an arbitrary
    record [faults], and integers are written through an rw_buffer_t over an array with
    arbitrary contents.  Within one event no call is repeated with the same arguments
    after it failed, so a function of the arguments describes every pattern of failures;
    the rounds of the nonce loop (schnorr.c:32), which do repeat, are counted. *)
From Verif Require Import Base Gve RwBuffer.

(** The two hash contexts fed by blake2b_update: of the transaction or box, and of the
    script of the current output (stx_output.h:34). *)
Inductive stream := S_MAIN | S_SCRIPT.

Record faults := mk_faults {
  (** blake2b_256_init (blake2b.c:3-5) outside of schnorr.c *)
  f_init : bool;
  (** blake2b_update (blake2b.c:7-9): stream, bytes fed before, new bytes.
      [Some g]: the call fails and leaves the context as if [g] had been fed. *)
  f_update : stream -> bytes -> bytes -> option bytes;
  (** blake2b_256_finalize (blake2b.c:11-18) outside of schnorr.c *)
  f_final : stream -> bytes -> bool;
  (** blake2b_256 (blake2b.c:20-22) *)
  f_hash : bytes -> bool;
  (** crypto_derive_private_key (crypto.c:17-47) *)
  f_derive : bool;
  (** crypto_init_public_key (crypto.c:67-79) *)
  f_pub : bool;
  (** Round of schnorr.c:32-86 broken off by a failing call: [Some true] after cx_rng was
      called, [Some false] before. *)
  f_round : nat -> option bool;
  (** A call of schnorr.c:96-113 fails. *)
  f_finish : bool;
  (** cx_hmac_sha256, whose result is ignored (ainpt_response.c:49, stx_handler.c:130):
      [Some g]: the call fails and leaves [g] where its output belongs. *)
  f_hmac : bytes -> bytes -> option bytes;
  (** Contents of an array of the given size before it is written to: a local one, or
      the member of the context an address is written to. *)
  f_stack : N -> bytes }.

(** Arrays have their size. *)
Definition stack_ok (F : faults) : Prop := forall n, blen (f_stack F n) = n.

(** RW_BUFFER_NEW_LOCAL_EMPTY, RW_BUFFER_FROM_ARRAY_EMPTY (rwbuffer.h:9-11, 21-24) *)
Definition array_buffer (F : faults) (n : N) : rwb := rw_buffer_init (f_stack F n) n 0.

(** gve.c:76-86; [B_ub]: out[10] overflows. *)
Definition put_u64 (b : rwb) (v : N) : bres unit :=
  match gve_put_u64_opt v with
  | None => B_ub
  | Some l => rw_buffer_write_bytes b l
  end.
(** gve.h:38-40, 58-60: the argument is a uint32_t, uint16_t. *)
Definition put_u32 (b : rwb) (v : N) : bres unit := put_u64 b (u32 v).
Definition put_u16 (b : rwb) (v : N) : bres unit := put_u64 b (u16 v).
(** gve.h:46-48 *)
Definition put_u8 (b : rwb) (v : N) : bres unit := rw_buffer_write_int true 1 b v.

(** The bytes between rw_buffer_read_ptr and the write position (rwbuffer.h:76-78). *)
Definition written (b : rwb) : option bytes := mem_get (rb_mem b) (rb_off b) (rw_buffer_data_len b).

(** blake2b_update: HASHER error and a spoilt context, or the bytes appended. *)
Definition update (F : faults) (s : stream) (h l : bytes) : res * bytes :=
  match f_update F s h l with
  | Some g => (R_HASHER, g)
  | None => (R_OK, h ++ l)
  end.

(** A write to a buffer followed by blake2b_update of what the buffer holds; also gives
    the buffer back. *)
Definition update_written (F : faults) (s : stream) (h : bytes) (w : bres unit)
  : res * (bytes * rwb) :=
  match w with
  | B_ub => (R_UB, (h, mk_rwb [] 0 0 0))
  | B_fail b => (R_BUFFER, (h, b))
  | B_ok b _ => match written b with
                | None => (R_UB, (h, b))
                | Some l => let '(r, h) := update F s h l in (r, (h, b))
                end
  end.

(** Go on only after R_OK. *)
Definition go {T U} (x : res * T) (err : res -> T -> res * U) (k : T -> res * U) : res * U :=
  match x with
  | (R_OK, t) => k t
  | (r, t) => err r t
  end.

(** Writes one after the other; an integer of n bytes is written as [be_bytes n v]
    (rwbuffer.c:34-91). *)
Fixpoint write_all (b : rwb) (ls : list bytes) : bres unit :=
  match ls with
  | [] => B_ok b tt
  | l :: t => match rw_buffer_write_bytes b l with
              | B_ok b _ => write_all b t
              | r => r
              end
  end.
