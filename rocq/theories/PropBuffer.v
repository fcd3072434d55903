(** C06: buffers. *)
From Verif Require Import Lib RwBuffer SpecBuffer RwBufferProofs.

(** Any sequence of calls, with any arguments, keeps the buffer valid and never touches
    memory outside the array, provided no write seek goes below the read position. *)
Theorem C06_sequences : forall b ops r, rw_run b ops r -> buffer_valid b ->
  exists b', r = Some b' /\ buffer_valid b' /\ rb_cap b' = rb_cap b /\ length (rb_mem b') = length (rb_mem b).
Proof. exact rw_run_ok. Qed.
Print Assumptions C06_sequences.
(** Each call is defined; one that fails changes nothing. *)
Theorem C06_call : forall b o, buffer_valid b -> orderly b o ->
  exists ok b', rw_step b o = Some (ok, b') /\ buffer_valid b' /\ rb_cap b' = rb_cap b /\
    length (rb_mem b') = length (rb_mem b) /\ (ok = false -> b' = b).
Proof. exact rw_step_ok. Qed.
Print Assumptions C06_call.
(** Reading takes bytes off the front of the unread data, exactly when there are enough. *)
Theorem C06_read_int : forall big b n, buffer_valid b -> n < 2 ^ 32 ->
  match read_bytes (N.to_nat n) (unread b) with
  | Some (l, rest) => exists b', rw_buffer_read_int big n b = B_ok b' (be_value (if big then l else rev l)) /\
      buffer_valid b' /\ unread b' = rest /\ rb_mem b' = rb_mem b
  | None => rw_buffer_read_int big n b = B_fail b
  end.
Proof. exact read_int_refines. Qed.
Print Assumptions C06_read_int.
Theorem C06_read_bytes : forall b n, buffer_valid b -> n < 2 ^ 32 ->
  match read_bytes (N.to_nat n) (unread b) with
  | Some (l, rest) => exists b', rw_buffer_read_bytes b n = B_ok b' l /\
      buffer_valid b' /\ unread b' = rest /\ rb_mem b' = rb_mem b
  | None => rw_buffer_read_bytes b n = B_fail b
  end.
Proof. exact read_bytes_refines. Qed.
Print Assumptions C06_read_bytes.
(** Writing appends exactly the given bytes when they fit, and touches no other cell. *)
Theorem C06_write : forall b l, buffer_valid b -> blen l < 2 ^ 32 ->
  (blen l <= rb_cap b - rb_wpos b ->
   exists b', rw_buffer_write_bytes b l = B_ok b' tt /\ buffer_valid b' /\ unread b' = unread b ++ l /\
     rb_off b' = rb_off b /\ length (rb_mem b') = length (rb_mem b) /\
     (forall i, (i < N.to_nat (rb_wpos b) \/ N.to_nat (rb_wpos b) + length l <= i)%nat ->
                nth i (rb_mem b') 0 = nth i (rb_mem b) 0)) /\
  (rb_cap b - rb_wpos b < blen l -> rw_buffer_write_bytes b l = B_fail b).
Proof. exact write_refines. Qed.
Print Assumptions C06_write.
Theorem C06_write_read : forall big n b v, buffer_valid b -> N.of_nat n <= rb_cap b - rb_wpos b ->
  v < 256 ^ N.of_nat n -> rb_off b = rb_wpos b ->
  exists b1 b2, rw_buffer_write_int big n b v = B_ok b1 tt /\
    rw_buffer_read_int big (N.of_nat n) b1 = B_ok b2 v /\ unread b2 = [].
Proof. exact write_read_int. Qed.
Print Assumptions C06_write_read.
(** Shifting moves the unread data to the front and loses none of it. *)
Theorem C06_shift : forall b, buffer_valid b ->
  exists b', rw_buffer_shift_data b = B_ok b' tt /\ buffer_valid b' /\ rb_off b' = 0 /\
    rb_wpos b' = rb_wpos b - rb_off b /\ rb_cap b' = rb_cap b /\
    length (rb_mem b') = length (rb_mem b) /\ unread b' = unread b.
Proof. exact shift_cases. Qed.
Print Assumptions C06_shift.
(** Without the proviso the claim is false: after moving the write position below the read
    position the data length wraps and a copy reads outside the array. *)
Theorem C06_any_use_refuted :
  exists b o1 b' o2, buffer_valid b /\ rw_step b o1 = Some (true, b') /\ ~ buffer_valid b' /\
    rw_step b' o2 = None.
Proof. exact write_seek_breaks. Qed.
Print Assumptions C06_any_use_refuted.

Example C06_ex : exists r,
  rw_run (rw_buffer_init (repeat 0 10) 10 0)
         [RO_WRITE_INT true 4 0x01020304; RO_READ_INT false 2; RO_WRITE_BYTES [7; 8; 9]; RO_SHIFT;
          RO_WRITE_BYTES (repeat 5 6); RO_READ_BYTES 3; RO_SEEK_WRITE_SET 4] (Some r) /\ unread r = [8].
Proof.
  eexists. split.
  - repeat (eapply rw_run_cons; [cbn; repeat split; try reflexivity; discriminate|vm_compute; reflexivity|]).
    apply rw_run_nil.
  - reflexivity.
Qed.
