(** Commands as they lie in memory.  In App a command's data is a list of bytes; here it is
    a buffer_t (pointer, size, offset) into the I/O buffer, which goes on behind the data
    with whatever earlier commands and answers left there.  A read outside the memory is
    undefined behaviour.  buffer_t is the first member of rw_buffer_t (rwbuffer.h:29-32)
    and its functions are those of RwBuffer; the capacity is not looked at.
    This file: the reading functions and the parsers of src/commands. *)
From Verif Require Import Base Env Bip32 InputFrame RwBuffer TxTable P2pkOp App.

(** buffer_ext.h:16-20.  [mem]: the memory from the pointer on. *)
Definition buffer_init (mem : bytes) (size : N) : rwb := rw_buffer_init mem size size.
(** [n] bytes at buffer_read_ptr(buffer) + i (buffer_ext.h:29-31) *)
Definition peek (b : rwb) (i n : N) : option bytes := mem_get (rb_mem b) (rb_off b + i) n.
(** buffer_init(&sub, buffer_read_ptr(buffer), size) *)
Definition sub_buffer (b : rwb) (size : N) : rwb :=
  buffer_init (skipn (N.to_nat (rb_off b)) (rb_mem b)) size.

(** unit-tests/utils/bip32.c:34-40: the loop of bip32_path_read. *)
Fixpoint path_words (b : rwb) (offset : N) (n : nat) : bres (list N) :=
  match n with
  | O => B_ok b []
  | S k =>
      if rw_buffer_data_len b <? sz_add offset 4 then B_fail b
      else match peek b offset 4 with
           | None => B_ub
           | Some w => match path_words b (sz_add offset 4) k with
                       | B_ok b l => B_ok b (be_value w :: l)
                       | r => r
                       end
           end
  end.
(** unit-tests/utils/buffer.c:141-151, unit-tests/utils/bip32.c:26-43 *)
Definition buffer_read_bip32_path (b : rwb) (n : N) : bres path :=
  if (n =? 0) || (MAX_BIP32_PATH <? n) then B_fail b
  else match path_words b 0 (N.to_nat n) with
       | B_ok b l => seek_done (rw_buffer_seek_read_cur b (4 * n)) l
       | r => r
       end.

(** A read that reports [s] when the data run out. *)
Definition need {A B} (s : sw) (x : bres A) (k : A -> rwb -> out B) : out B :=
  match x with
  | B_ok b a => k a b
  | B_fail _ => Fail s
  | B_ub => Fail SW_UB
  end.
(** CHECK_READ_PARAM (cmd_macros.h:20-21) of an integer, of bytes, of a path. *)
Definition get_int {B} (n : N) (b : rwb) (k : N -> rwb -> out B) : out B :=
  need SW_NOT_ENOUGH_DATA (rw_buffer_read_int true n b) k.
Definition get_bytes {B} (n : N) (b : rwb) (k : bytes -> rwb -> out B) : out B :=
  need SW_NOT_ENOUGH_DATA (rw_buffer_read_bytes b n) k.
Definition get_path {B} (n : N) (b : rwb) (k : path -> rwb -> out B) : out B :=
  need SW_NOT_ENOUGH_DATA (buffer_read_bip32_path b n) k.
(** The optional application token (epk_handler.c:43-45, da_handler.c:48-50,
    ainpt_handler.c:86, stx_handler.c:70). *)
Definition get_token {B} (has_token : bool) (b : rwb) (k : N -> rwb -> out B) : out B :=
  if has_token then get_int 4 b k else k 0 b.
(** CHECK_PARAMS_FINISHED (cmd_macros.h:23-24) *)
Definition at_end {A} (b : rwb) (a : A) : out A :=
  if rw_buffer_can_read b 1 then Fail SW_TOO_MUCH_DATA else Ok a.

(** epk_handler.c:37-46 *)
Definition raw_parse_epk (has_token : bool) (b : rwb) : out (path * N) :=
  get_int 1 b (fun n b => get_path n b (fun p b => get_token has_token b (fun t b => at_end b (p, t)))).

(** da_handler.c:38-51 *)
Definition raw_parse_da (has_token : bool) (b : rwb) : out (N * path * N) :=
  get_int 1 b (fun net b => get_int 1 b (fun n b => get_path n b (fun p b =>
  get_token has_token b (fun t b => at_end b (net, p, t))))).

(** ainpt_handler.c:75-87 *)
Definition raw_parse_attest_init (has_token : bool) (b : rwb) : out attest_params :=
  get_bytes 32 b (fun id b => get_int 2 b (fun index b => get_int 8 b (fun value b =>
  get_int 4 b (fun tree b => get_int 4 b (fun height b => get_int 1 b (fun tokens b =>
  get_int 4 b (fun regs b => get_token has_token b (fun t b =>
  at_end b (mk_ap id index value tree height tokens regs t))))))))).

(** ainpt_handler.c:141-143 *)
Definition raw_parse_frame_index (b : rwb) : out N := get_int 1 b (fun i b => at_end b i).

(** stx_handler.c:25-31 *)
Definition raw_read_path {B} (b : rwb) (k : path -> rwb -> out B) : out B :=
  need SW_BUFFER_ERROR (rw_buffer_read_int true 1 b) (fun n b =>
  need SW_BUFFER_ERROR (buffer_read_bip32_path b n) k).

(** stx_handler.c:65-71 *)
Definition raw_parse_sign_init (has_token : bool) (b : rwb) : out (N * path * N) :=
  get_int 1 b (fun net b => raw_read_path b (fun p b =>
  get_token has_token b (fun t b => at_end b (net, p, t)))).

(** stx_handler.c:91-110 *)
Definition raw_parse_tx_start (b : rwb) : out (N * N * N * N) :=
  get_int 2 b (fun inputs b => get_int 2 b (fun data_inputs b => get_int 1 b (fun tokens b =>
  get_int 2 b (fun outputs b => at_end b (inputs, data_inputs, tokens, outputs))))).

(** stx_handler.c:199-207 *)
Definition raw_parse_output_init (b : rwb) : out (N * N * N * N * N) :=
  get_int 8 b (fun value b => get_int 4 b (fun tree b => get_int 4 b (fun height b =>
  get_int 1 b (fun tokens b => get_int 4 b (fun regs b => at_end b (value, tree, height, tokens, regs)))))).

(** input_frame.c:4-14; 0 stands for failure, [None] is a read outside the memory. *)
Definition raw_frame_data_length (b : rwb) : option N :=
  if negb (rw_buffer_can_read b FRAME_MIN_SIZE) then Some 0
  else match peek b (N.of_nat FRAME_TOKEN_COUNT_POSITION) 1 with
       | None => None
       | Some l =>
           let data_len := u8 (hd 0 l * FRAME_PAIR_SIZE + FRAME_PREFIX_LEN) in
           if negb (rw_buffer_can_read b (data_len + N.of_nat FRAME_SIGNATURE_LEN)) then Some 0
           else Some data_len
       end.

(** A verified input frame: box id, number of frames, index, value, length of the context
    extension (0 unless the index is 0), and the tokens where they lie. *)
Record raw_frame := mk_raw_frame {
  rf_box_id : bytes; rf_frames_count : N; rf_index : N; rf_value : N; rf_ext_len : N; rf_tokens : rwb }.

(** stx_handler.c:125-165.  input_frame_signature_ptr (input_frame.c:16-20) computes the
    same length again, which is not 0. *)
Definition raw_parse_input_frame (E : env) (key : bytes) (b : rwb) : out raw_frame :=
  match raw_frame_data_length b with
  | None => Fail SW_UB
  | Some n =>
      if n =? 0 then Fail SW_NOT_ENOUGH_DATA
      else match peek b 0 n, peek b n (N.of_nat FRAME_SIGNATURE_LEN) with
      | Some body, Some tag =>
          if negb (bytes_eqb (firstn FRAME_SIGNATURE_LEN (e_hmac E key body)) tag)
          then Fail SW_BAD_FRAME_SIGNATURE
          else
            get_bytes 32 b (fun id b => get_int 1 b (fun frames_count b => get_int 1 b (fun frame_index b =>
            get_int 8 b (fun value b => get_int 1 b (fun tokens_count b =>
            let tokens_len := u8 (tokens_count * FRAME_PAIR_SIZE) in
            let tokens := sub_buffer b tokens_len in
            need SW_NOT_ENOUGH_DATA (rw_buffer_seek_read_cur b (tokens_len + N.of_nat FRAME_SIGNATURE_LEN)) (fun _ b =>
            if frame_index =? 0 then
              get_int 4 b (fun ext _ => Ok (mk_raw_frame id frames_count frame_index value ext tokens))
            else Ok (mk_raw_frame id frames_count frame_index value 0 tokens)))))))
      | _, _ => Fail SW_UB
      end
  end.
