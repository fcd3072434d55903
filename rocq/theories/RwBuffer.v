(** src/common/rwbuffer.c, rwbuffer.h, buffer_ext.c and unit-tests/utils/buffer.c at the
    level of the C structure: backing array, read offset, write offset, capacity.
    size_t is 32 bits wide (ARM).  An access outside the backing array is [B_ub]. *)
From Verif Require Import Base.

(** rwbuffer.h:29-32 with the array the pointer leads to. *)
Record rwb := mk_rwb { rb_mem : bytes; rb_off : N; rb_wpos : N; rb_cap : N }.

Inductive bres (A : Type) := B_ok (b : rwb) (a : A) | B_fail (b : rwb) | B_ub.
Arguments B_ok {A}. Arguments B_fail {A}. Arguments B_ub {A}.

Definition rb_set_off (b : rwb) (o : N) : rwb := mk_rwb (rb_mem b) o (rb_wpos b) (rb_cap b).
Definition rb_set_wpos (b : rwb) (w : N) : rwb := mk_rwb (rb_mem b) (rb_off b) w (rb_cap b).

(** size_t subtraction and addition. *)
Definition sz_sub (a b : N) : N := u32 (a + two32 - b).
Definition sz_add (a b : N) : N := u32 (a + b).

(** rwbuffer.h:47-53 *)
Definition rw_buffer_init (mem : bytes) (buf_size data_size : N) : rwb :=
  mk_rwb mem 0 data_size buf_size.
(** rwbuffer.h:62-65 *)
Definition rw_buffer_empty (b : rwb) : rwb := mk_rwb (rb_mem b) 0 0 (rb_cap b).
(** rwbuffer.h:76-78, buffer_ext.h:42-44 *)
Definition rw_buffer_data_len (b : rwb) : N := sz_sub (rb_wpos b) (rb_off b).
(** rwbuffer.h:89-91 *)
Definition rw_buffer_empty_space_len (b : rwb) : N := sz_sub (rb_cap b) (rb_wpos b).
(** rwbuffer.h:126-128, buffer.c:27-30 *)
Definition rw_buffer_can_read (b : rwb) (n : N) : bool := n <=? rw_buffer_data_len b.
(** rwbuffer.h:141-143 *)
Definition rw_buffer_can_write (b : rwb) (n : N) : bool := n <=? rw_buffer_empty_space_len b.

(** buffer.c:32-41 *)
Definition rw_buffer_seek_read_set (b : rwb) (o : N) : bres unit :=
  if rb_wpos b <? o then B_fail b else B_ok (rb_set_off b o) tt.
(** buffer.c:43-53 *)
Definition rw_buffer_seek_read_cur (b : rwb) (o : N) : bres unit :=
  if (sz_add (rb_off b) o <? rb_off b) || (rb_wpos b <? sz_add (rb_off b) o) then B_fail b
  else B_ok (rb_set_off b (sz_add (rb_off b) o)) tt.
(** buffer.c:55-64 *)
Definition rw_buffer_seek_read_end (b : rwb) (o : N) : bres unit :=
  if rb_wpos b <? o then B_fail b else B_ok (rb_set_off b (rb_wpos b - o)) tt.
(** rwbuffer.c:9-15 *)
Definition rw_buffer_seek_write_set (b : rwb) (o : N) : bres unit :=
  if rb_cap b <? o then B_fail b else B_ok (rb_set_wpos b o) tt.
(** rwbuffer.c:17-24 *)
Definition rw_buffer_seek_write_cur (b : rwb) (o : N) : bres unit :=
  if (sz_add (rb_wpos b) o <? rb_wpos b) || (rb_cap b <? sz_add (rb_wpos b) o) then B_fail b
  else B_ok (rb_set_wpos b (sz_add (rb_wpos b) o)) tt.
(** rwbuffer.c:26-32 *)
Definition rw_buffer_seek_write_end (b : rwb) (o : N) : bres unit :=
  if rb_cap b <? o then B_fail b else B_ok (rb_set_wpos b (rb_cap b - o)) tt.

(** Memory access: [n] bytes at position [i]. *)
Definition mem_get (m : bytes) (i n : N) : option bytes :=
  if blen m <? i + n then None
  else Some (firstn (N.to_nat n) (skipn (N.to_nat i) m)).
Definition mem_put (m : bytes) (i : N) (l : bytes) : option bytes :=
  if blen m <? i + blen l then None
  else Some (firstn (N.to_nat i) m ++ l ++ skipn (N.to_nat i + length l) m).

(** The callers that ignore the boolean of a seek. *)
Definition seek_done {A} (r : bres unit) (a : A) : bres A :=
  match r with B_ok b _ | B_fail b => B_ok b a | B_ub => B_ub end.

(** buffer_ext.c:8-12 *)
Definition rw_buffer_copy_bytes (b : rwb) (n : N) : bres bytes :=
  if negb (rw_buffer_can_read b n) then B_fail b
  else match mem_get (rb_mem b) (rb_off b) n with
       | None => B_ub
       | Some l => B_ok b l
       end.
(** buffer_ext.c:14-19 *)
Definition rw_buffer_read_bytes (b : rwb) (n : N) : bres bytes :=
  match rw_buffer_copy_bytes b n with
  | B_ok b l => match rw_buffer_seek_read_cur b n with
                | B_ok b _ => B_ok b l
                | B_fail b => B_fail b
                | B_ub => B_ub
                end
  | r => r
  end.

(** buffer.c:66-126 and read.c: [n] bytes (1, 2, 4 or 8), big or little endian. *)
Definition rw_buffer_read_int (big : bool) (n : N) (b : rwb) : bres N :=
  if negb (rw_buffer_can_read b n) then B_fail b
  else match mem_get (rb_mem b) (rb_off b) n with
       | None => B_ub
       | Some l => seek_done (rw_buffer_seek_read_cur b n) (be_value (if big then l else rev l))
       end.

(** rwbuffer.c:93-103 *)
Definition rw_buffer_write_bytes (b : rwb) (l : bytes) : bres unit :=
  if negb (rw_buffer_can_write b (blen l)) then B_fail b
  else match mem_put (rb_mem b) (rb_wpos b) l with
       | None => B_ub
       | Some m => seek_done (rw_buffer_seek_write_cur
                                (mk_rwb m (rb_off b) (rb_wpos b) (rb_cap b)) (blen l)) tt
       end.
(** rwbuffer.c:34-91 and write.c: [n] bytes (1, 2, 4 or 8), big or little endian. *)
Definition rw_buffer_write_int (big : bool) (n : nat) (b : rwb) (v : N) : bres unit :=
  rw_buffer_write_bytes b (if big then be_bytes n v else rev (be_bytes n v)).

(** rwbuffer.c:105-111 *)
Definition rw_buffer_shift_data (b : rwb) : bres unit :=
  if rb_off b =? 0 then B_ok b tt
  else
    let n := rw_buffer_data_len b in
    match mem_get (rb_mem b) (rb_off b) n with
    | None => B_ub
    | Some l =>
        match mem_put (rb_mem b) 0 l with
        | None => B_ub
        | Some m =>
            match seek_done (rw_buffer_seek_read_set
                               (mk_rwb m (rb_off b) (rb_wpos b) (rb_cap b)) 0) tt with
            | B_ok b _ => seek_done (rw_buffer_seek_write_set b n) tt
            | r => r
            end
        end
    end.

(** One call of the interface. *)
Inductive rw_op :=
| RO_EMPTY | RO_SHIFT
| RO_SEEK_READ_SET (o : N) | RO_SEEK_READ_CUR (o : N) | RO_SEEK_READ_END (o : N)
| RO_SEEK_WRITE_SET (o : N) | RO_SEEK_WRITE_CUR (o : N) | RO_SEEK_WRITE_END (o : N)
| RO_COPY (n : N) | RO_READ_BYTES (n : N) | RO_READ_INT (big : bool) (n : N)
| RO_WRITE_BYTES (l : bytes) | RO_WRITE_INT (big : bool) (n : nat) (v : N).

(** What the call leaves behind: the boolean it returns and the buffer. *)
Definition forget {A} (r : bres A) : option (bool * rwb) :=
  match r with B_ok b _ => Some (true, b) | B_fail b => Some (false, b) | B_ub => None end.
Definition rw_step (b : rwb) (o : rw_op) : option (bool * rwb) :=
  match o with
  | RO_EMPTY => Some (true, rw_buffer_empty b)
  | RO_SHIFT => forget (rw_buffer_shift_data b)
  | RO_SEEK_READ_SET o => forget (rw_buffer_seek_read_set b o)
  | RO_SEEK_READ_CUR o => forget (rw_buffer_seek_read_cur b o)
  | RO_SEEK_READ_END o => forget (rw_buffer_seek_read_end b o)
  | RO_SEEK_WRITE_SET o => forget (rw_buffer_seek_write_set b o)
  | RO_SEEK_WRITE_CUR o => forget (rw_buffer_seek_write_cur b o)
  | RO_SEEK_WRITE_END o => forget (rw_buffer_seek_write_end b o)
  | RO_COPY n => forget (rw_buffer_copy_bytes b n)
  | RO_READ_BYTES n => forget (rw_buffer_read_bytes b n)
  | RO_READ_INT big n => forget (rw_buffer_read_int big n b)
  | RO_WRITE_BYTES l => forget (rw_buffer_write_bytes b l)
  | RO_WRITE_INT big n v => forget (rw_buffer_write_int big n b v)
  end.
