(** What a read/write buffer is: a queue of unread bytes inside an array. *)
From Verif Require Import Base RwBuffer.

(** 0 <= read position <= write position <= capacity <= size of the array. *)
Definition buffer_valid (b : rwb) : Prop :=
  rb_off b <= rb_wpos b /\ rb_wpos b <= rb_cap b /\ rb_cap b <= blen (rb_mem b) /\ rb_cap b < 2 ^ 32.
(** The bytes written and not yet read. *)
Definition unread (b : rwb) : bytes :=
  firstn (N.to_nat (rb_wpos b - rb_off b)) (skipn (N.to_nat (rb_off b)) (rb_mem b)).
(** Arguments are size_t values; write seeks do not go below the read position. *)
Definition orderly (b : rwb) (o : rw_op) : Prop :=
  match o with
  | RO_SEEK_READ_SET n | RO_SEEK_READ_CUR n | RO_SEEK_READ_END n
  | RO_SEEK_WRITE_CUR n | RO_COPY n | RO_READ_BYTES n | RO_READ_INT _ n => n < 2 ^ 32
  | RO_SEEK_WRITE_SET n => n < 2 ^ 32 /\ rb_off b <= n
  | RO_SEEK_WRITE_END n => n < 2 ^ 32 /\ rb_off b <= rb_cap b - n
  | RO_WRITE_BYTES l => blen l < 2 ^ 32
  | RO_WRITE_INT _ n _ => N.of_nat n < 2 ^ 32
  | RO_EMPTY | RO_SHIFT => True
  end.
(** A sequence of calls, each orderly where it is made. *)
Inductive rw_run : rwb -> list rw_op -> option rwb -> Prop :=
| rw_run_nil : forall b, rw_run b [] (Some b)
| rw_run_ub : forall b o t, orderly b o -> rw_step b o = None -> rw_run b (o :: t) None
| rw_run_cons : forall b o t ok b' r, orderly b o -> rw_step b o = Some (ok, b') ->
    rw_run b' t r -> rw_run b (o :: t) r.
