(** The serializers of src/ergo/tx_ser_*.c once more, with every blake2b_update in its
    place and able to fail, and with the local buffers.  Functions of TxTable, TxBox,
    TxInput, TxFull that neither hash nor write to a buffer are reused. *)
From Verif Require Import Base Gve RwBuffer ErgoTree TxTable TxBox TxInput TxFull Fault.

Section LowTx.
  Variable F : faults.

  (** tx_ser_table.c:59-63 *)
  Fixpoint low_table_ids (h : bytes) (ids : list bytes) : res * bytes :=
    match ids with
    | [] => (R_OK, h)
    | id :: ids => go (update F S_MAIN h id) pair (fun h => low_table_ids h ids)
    end.
  (** tx_ser_table.c:49-65 *)
  Definition low_table_hash (h : bytes) (distinct : N) (t : token_table) : res * bytes :=
    go (update_written F S_MAIN h (put_u32 (array_buffer F 10) distinct)) (fun r x => (r, fst x)) (fun '(h, _) =>
    low_table_ids h (map (fun i => nth i t zero_id) (seq 0 (N.to_nat distinct)))).

  (** * Boxes *)
  Section LowBox.
    Context {A : Type}.
    Variable cb : box_callbacks A.

    Definition bs_with_hash (s : bs A) (h : bytes) : bs A := mk_bs (bs_box s) h (bs_cb s).
    (** [if (!blake2b_update(context->hash, ...)) return res_error(context, HASHER)] *)
    Definition low_feed (s : bs A) (l : bytes) : res * bs A :=
      go (update F S_MAIN (bs_hash s) l) (fun r h => box_res_error (bs_with_hash s h) r)
         (fun h => (R_OK, bs_with_hash s h)).
    (** The same of what was written to a buffer, which failing is the error BUFFER. *)
    Definition low_feed_written (s : bs A) (w : bres unit) : res * (bs A * rwb) :=
      go (update_written F S_MAIN (bs_hash s) w)
         (fun r '(h, b) => (r, (snd (box_res_error (bs_with_hash s h) r), b)))
         (fun '(h, b) => (R_OK, (bs_with_hash s h, b))).

    Definition drop {U} (r : res) (x : bs A * U) : res * bs A := (r, fst x).

    (** tx_ser_box.c:23-41 *)
    Definition low_add_height_and_token_count (s : bs A) : res * bs A :=
      go (low_feed_written s (put_u32 (array_buffer F 10) (bx_height (bs_box s)))) drop (fun '(s, b) =>
      go (low_feed_written s (put_u8 (rw_buffer_empty b) (bx_tokens_count (bs_box s)))) drop (fun '(s, _) =>
      (R_OK, s))).

    (** tx_ser_box.c:43-53 *)
    Definition low_add_empty_registers_count (s : bs A) : res * bs A :=
      go (low_feed_written s (put_u8 (array_buffer F 1) 0)) drop (fun '(s, _) => (R_OK, s)).

    (** tx_ser_box.c:73-83 *)
    Definition low_ergo_tree_added_tail (s : bs A) : res * bs A :=
      go (low_add_height_and_token_count s) pair (fun s =>
      if bx_tokens_count (bs_box s) =? 0 then
        let s := bs_with_state s BX_TOKENS_ADDED in
        if bx_regs_size (bs_box s) =? 0 then
          go (low_add_empty_registers_count s) pair (fun s => box_finished cb s)
        else (R_OK, s)
      else (R_OK, bs_with_state s BX_TREE_ADDED)).

    (** tx_ser_box.c:66-84 *)
    Definition low_ergo_tree_added (s : bs A) : res * bs A :=
      match on_type cb with
      | None => low_ergo_tree_added_tail s
      | Some f =>
          let '(r, a) := f (bx_type (bs_box s)) (bx_value (bs_box s)) (bs_cb s) in
          let s := bs_with_cb s a in
          if res_pass r then low_ergo_tree_added_tail s else box_res_error s r
      end.

    (** tx_ser_box.c:86-126 *)
    Definition low_box_init (value tree_size height tokens_count regs_size : N)
               (hash : bytes) (a : A) : res * bs A :=
      let z := mk_bs box_zero hash a in
      if TOKEN_MAX_COUNT <? tokens_count then box_res_error z R_TOO_MANY_TOKENS
      else if MAX_TX_DATA_PART_LEN <? tree_size then box_res_error z R_TOO_MUCH_DATA
      else if MAX_TX_DATA_PART_LEN <? regs_size then box_res_error z R_TOO_MUCH_DATA
      else
        go (low_feed_written z (put_u64 (array_buffer F 10) value)) drop (fun '(s, _) =>
        (R_OK, bs_with_box s (mk_box BX_INITIALIZED value tree_size height regs_size tokens_count BT_TREE))).

    (** tx_ser_box.c:128-151 *)
    Definition low_box_add_tree (s : bs A) (chunk : bytes) : res * bs A :=
      match bx_state (bs_box s) with
      | BX_INITIALIZED =>
          let len := blen chunk in
          let size := bx_tree_size (bs_box s) in
          if size <? len then box_res_error s R_TOO_MUCH_DATA
          else if (len <? size) && (len <? MAX_DATA_CHUNK_LEN) then box_res_error s R_SMALL_CHUNK
          else
            go (low_feed s chunk) pair (fun s =>
            let s := bs_with_box s (box_set_tree_size (bs_box s) (size - len)) in
            if size - len =? 0 then
              low_ergo_tree_added (bs_with_box s (box_set_type (bs_box s) BT_TREE))
            else (R_MORE_DATA, s))
      | _ => box_res_error s R_BAD_STATE
      end.

    (** tx_ser_box.c:153-165 *)
    Definition low_box_add_miners_fee_tree (s : bs A) (is_mainnet : bool) : res * bs A :=
      match bx_state (bs_box s) with
      | BX_INITIALIZED =>
          go (low_feed s (ergo_tree_miners_fee_tree is_mainnet)) pair (fun s =>
          low_ergo_tree_added (bs_with_box s (box_set_type (bs_box s) BT_FEE)))
      | _ => box_res_error s R_BAD_STATE
      end.

    (** ergo_tree.c:36-46: the tree is written into a 36-byte array; the results of the
        writes are ignored.  [None]: outside of the array. *)
    Definition low_generate_p2pk (raw : bytes) : option bytes :=
      match seek_done (rw_buffer_write_bytes (array_buffer F 36) P2PK_PREFIX) tt with
      | B_ok b _ =>
          match seek_done (rw_buffer_write_int true 1 b (if N.land (nth 64 raw 0) 1 =? 0 then 0x02 else 0x03)) tt with
          | B_ok b _ =>
              match seek_done (rw_buffer_write_bytes b (firstn 32 (skipn 1 raw))) tt with
              | B_ok b _ => Some (rb_mem b)
              | _ => None
              end
          | _ => None
          end
      | _ => None
      end.

    (** tx_ser_box.c:167-179 *)
    Definition low_box_add_change_tree (s : bs A) (raw_public_key : bytes) : res * bs A :=
      match bx_state (bs_box s) with
      | BX_INITIALIZED =>
          match low_generate_p2pk raw_public_key with
          | None => (R_UB, s)
          | Some tree =>
              go (low_feed s tree) pair (fun s =>
              low_ergo_tree_added (bs_with_box s (box_set_type (bs_box s) BT_CHANGE)))
          end
      | _ => box_res_error s R_BAD_STATE
      end.

    (** tx_ser_box.c:227-248; [b] is the buffer of line 186. *)
    Definition low_box_token_value (b : rwb) (s : bs A) (id : token_id) (input : bytes)
      : res * (bs A * (bytes * rwb)) :=
      match read_u64 input with
      | None => (R_BAD_TOKEN_VALUE, (bs_with_state s BX_ERROR, (input, b)))
      | Some (value, rest) =>
          go (low_feed_written s (put_u64 (rw_buffer_empty b) value)) (fun r x => (r, (fst x, (rest, b)))) (fun '(s, b) =>
          let dec s := bs_with_box s (box_set_tokens_count (bs_box s)
                                        (bx_tokens_count (bs_box s) - 1)) in
          match on_token cb with
          | None => (R_OK, (dec s, (rest, b)))
          | Some f =>
              let '(r, a) := f (bx_type (bs_box s)) id value (bs_cb s) in
              let s := bs_with_cb s a in
              if res_pass r then (R_OK, (dec s, (rest, b))) else (r, (bs_with_state s BX_ERROR, (rest, b)))
          end)
      end.

    (** tx_ser_box.c:188-249 *)
    Definition low_box_one_token (table : option (N * token_table)) (b : rwb) (s : bs A) (input : bytes)
      : res * (bs A * (bytes * rwb)) :=
      let stop r := (r, (bs_with_state s BX_ERROR, (input, b))) in
      if bx_tokens_count (bs_box s) =? 0 then stop R_TOO_MANY_TOKENS
      else match table with
      | None =>
          match read_bytes ERGO_ID_LEN input with
          | None => stop R_BAD_TOKEN_ID
          | Some (id, rest) =>
              go (low_feed s id) (fun r s => (r, (s, (rest, b)))) (fun s => low_box_token_value b s id rest)
          end
      | Some (distinct, ids) =>
          match read_u32 input with
          | None => (R_BAD_TOKEN_INDEX, (s, (input, b)))
          | Some (index, rest) =>
              if distinct <=? index then stop R_BAD_TOKEN_INDEX
              else go (low_feed_written s (put_u32 (rw_buffer_empty b) index)) (fun r x => (r, (fst x, (rest, b)))) (fun '(s, b) =>
                   low_box_token_value b s (nth (N.to_nat index) ids zero_id) rest)
          end
      end.

    (** tx_ser_box.c:188-249 *)
    Fixpoint low_box_tokens_loop (fuel : nat) (table : option (N * token_table))
             (b : rwb) (s : bs A) (input : bytes) : res * bs A :=
      match fuel with
      | O => (R_UB, s)
      | S k =>
          match input with
          | [] => (R_OK, s)
          | _ => go (low_box_one_token table b s input) drop (fun '(s, (rest, b)) =>
                 low_box_tokens_loop k table b s rest)
          end
      end.

    (** tx_ser_box.c:250-259 *)
    Definition low_box_tokens_done (s : bs A) : res * bs A :=
      if bx_tokens_count (bs_box s) =? 0 then
        if bx_regs_size (bs_box s) =? 0 then
          go (low_add_empty_registers_count s) pair (fun s => box_finished cb s)
        else (R_OK, bs_with_state s BX_TOKENS_ADDED)
      else (R_MORE_DATA, s).

    (** tx_ser_box.c:181-260 *)
    Definition low_box_add_tokens (s : bs A) (input : bytes) (table : option (N * token_table))
      : res * bs A :=
      match bx_state (bs_box s) with
      | BX_TREE_ADDED =>
          go (low_box_tokens_loop (S (length input)) table (array_buffer F 10) s input) pair low_box_tokens_done
      | _ => box_res_error s R_BAD_STATE
      end.

    (** tx_ser_box.c:262-281 *)
    Definition low_box_add_registers (s : bs A) (chunk : bytes) : res * bs A :=
      match bx_state (bs_box s) with
      | BX_TOKENS_ADDED =>
          let len := blen chunk in
          let size := bx_regs_size (bs_box s) in
          if size <? len then box_res_error s R_TOO_MUCH_DATA
          else
            go (low_feed s chunk) pair (fun s =>
            let s := bs_with_box s (box_set_regs_size (bs_box s) (size - len)) in
            if size - len =? 0 then box_finished cb s else (R_MORE_DATA, s))
      | _ => box_res_error s R_BAD_STATE
      end.

    (** tx_ser_box.c:287-313 *)
    Definition low_box_id_hash (blake : bytes -> bytes) (s : bs A) (tx_id : bytes) (box_index : N)
      : res * (bs A * bytes) :=
      let stop r (s : bs A) := (r, (s, [])) in
      match bx_state (bs_box s) with
      | BX_FINISHED =>
          go (low_feed s tx_id) stop (fun s =>
          go (low_feed_written s (put_u16 (array_buffer F 4) box_index)) (fun r x => stop r (fst x)) (fun '(s, _) =>
          if f_final F S_MAIN (bs_hash s) then stop R_HASHER (bs_with_state s BX_ERROR)
          else (R_OK, (bs_with_state s BX_HASH_FINALIZED, blake (bs_hash s)))))
      | _ => stop R_BAD_STATE (bs_with_state s BX_ERROR)
      end.
  End LowBox.

  (** * Inputs *)
  Section LowInput.
    Context {A : Type}.
    Variable on_token_cb : option (bytes -> token_id -> N -> A -> res * A).

    Definition low_in_feed (s : ins A) (l : bytes) : res * ins A :=
      go (update F S_MAIN (is_hash s) l)
         (fun r h => input_res_error (mk_ins (is_in s) h (is_cb s)) r)
         (fun h => (R_OK, mk_ins (is_in s) h (is_cb s))).

    (** tx_ser_input.c:74-95 *)
    Definition low_input_frame_done (s : ins A) (box_id : bytes) : res * ins A :=
      let c := is_in s in
      let p := u8 (in_frames_processed c + 1) in
      let c := mk_input (in_state c) (in_box_id c) (in_frames_count c) p (in_ext_size c) in
      let s := mk_ins c (is_hash s) (is_cb s) in
      if p =? in_frames_count c then
        go (low_in_feed s box_id) pair (fun s =>
        go (low_in_feed s [0]) pair (fun s =>
        if in_ext_size c =? 0 then
          go (low_in_feed s [0]) pair (fun s => (R_OK, ins_with_state s IN_FINISHED))
        else (R_OK, ins_with_state s IN_EXTENSION_STARTED)))
      else (R_MORE_DATA, s).

    (** tx_ser_input.c:40-96 *)
    Definition low_input_add_tokens (s : ins A) (box_id : bytes) (frame_index : N) (tokens : bytes)
      : res * ins A :=
      match in_state (is_in s) with
      | IN_FRAMES_STARTED =>
          if negb (bytes_eqb (in_box_id (is_in s)) box_id) then input_res_error s R_BAD_INPUT_ID
          else if in_frames_count (is_in s) <=? frame_index then
            input_res_error s R_TOO_MANY_INPUT_FRAMES
          else if negb (frame_index =? in_frames_processed (is_in s)) then
            input_res_error s R_BAD_FRAME_INDEX
          else match input_tokens_loop on_token_cb (S (length tokens)) s tokens with
               | (R_OK, s') => low_input_frame_done s' box_id
               | (r, s') => (r, s')
               end
      | _ => input_res_error s R_BAD_STATE
      end.

    (** tx_ser_input.c:98-115 *)
    Definition low_input_add_context_extension (s : ins A) (chunk : bytes) : res * ins A :=
      match in_state (is_in s) with
      | IN_EXTENSION_STARTED =>
          let c := is_in s in
          let len := blen chunk in
          if in_ext_size c <? len then input_res_error s R_TOO_MUCH_DATA
          else
            go (low_in_feed s chunk) pair (fun s =>
            let c' := mk_input (in_state c) (in_box_id c) (in_frames_count c)
                               (in_frames_processed c) (in_ext_size c - len) in
            if in_ext_size c' =? 0 then (R_OK, mk_ins (in_set_state c' IN_FINISHED) (is_hash s) (is_cb s))
            else (R_MORE_DATA, mk_ins c' (is_hash s) (is_cb s)))
      | _ => input_res_error s R_BAD_STATE
      end.
  End LowInput.

  (** * The whole transaction *)
  Section LowFull.
    Context {A : Type}.
    Variable tget : A -> token_table.
    Variable tset : token_table -> A -> A.
    Variable box_cb : box_callbacks A.
    Variable input_cb : bytes -> token_id -> N -> A -> res * A.

    Definition fs_with_hash (s : fs A) (h : bytes) : fs A := mk_fs (fs_full s) h (fs_cb s).
    (** tx_ser_full.c:121-125 and its callers: whatever fails is the error HASHER. *)
    Definition low_hash_u16 (s : fs A) (v : N) : res * fs A :=
      go (update_written F S_MAIN (fs_hash s) (put_u16 (array_buffer F 4) v))
         (fun r x => match r with
                     | R_UB => (R_UB, s)
                     | _ => full_res_error (fs_with_hash s (fst x)) R_HASHER
                     end)
         (fun x => (R_OK, fs_with_hash s (fst x))).

    (** tx_ser_full.c:127-137 *)
    Definition low_data_inputs_finished (s : fs A) : res * fs A :=
      go (low_table_hash (fs_hash s) (fl_distinct (fs_full s)) (tget (fs_cb s)))
         (fun r h => full_res_error (fs_with_hash s h) r) (fun h =>
      go (low_hash_u16 (fs_with_hash s h) (fl_outputs_count (fs_full s))) pair (fun s =>
      (R_OK, fs_with_state s FL_OUTPUTS_STARTED))).

    (** tx_ser_full.c:139-152 *)
    Definition low_input_finished (s : fs A) : res * fs A :=
      let n := u16 (fl_inputs_count (fs_full s) + two16 - 1) in
      let s := fs_with_full s (full_set_inputs (fs_full s) n) in
      if n =? 0 then
        go (low_hash_u16 s (fl_data_inputs_count (fs_full s))) pair (fun s =>
        let s := fs_with_state s FL_DATA_INPUTS_STARTED in
        if fl_data_inputs_count (fs_full s) =? 0 then low_data_inputs_finished s else (R_OK, s))
      else (R_OK, s).

    (** tx_ser_full.c:163-196 *)
    Definition low_full_init (inputs_count data_inputs_count outputs_count tokens_count : N)
               (hash : bytes) (a : A) : res * fs A :=
      let z := mk_fs full_zero hash a in
      if inputs_count =? 0 then full_res_error z R_BAD_INPUT_COUNT
      else if outputs_count =? 0 then full_res_error z R_BAD_OUTPUT_COUNT
      else
        go (low_hash_u16 z inputs_count) pair (fun s =>
        let h := fs_hash s in
        let f d u st := mk_full st inputs_count data_inputs_count outputs_count d u in
        match table_init tokens_count (tget a) with
        | (R_OK, t) =>
            let a := tset t a in
            if tokens_count =? 0 then
              (R_OK, mk_fs (f tokens_count (FU_INPUT input_finished_ctx false) FL_INPUTS_STARTED) h a)
            else (R_OK, mk_fs (f tokens_count FU_ZERO FL_TOKENS_STARTED) h a)
        | (r, t) => full_res_error (mk_fs (f 0 FU_ZERO FL_TOKENS_STARTED) h (tset t a)) r
        end).

    (** tx_ser_full.c:238-255 *)
    Definition low_full_add_input_tokens (s : fs A) (box_id : bytes) (frame_index : N) (tokens : bytes)
      : res * fs A :=
      match fl_state (fs_full s) with
      | FL_INPUTS_STARTED =>
          on_input input_cb s (fun cb i => low_input_add_tokens cb i box_id frame_index tokens)
            (fun s => match fl_union (fs_full s) with
                      | FU_INPUT c _ => match in_state c with
                                        | IN_FINISHED => low_input_finished s
                                        | _ => (R_OK, s)
                                        end
                      | _ => (R_UB, s)
                      end)
      | _ => full_res_error s R_BAD_STATE
      end.

    (** tx_ser_full.c:257-267 *)
    Definition low_full_add_input_context_extension (s : fs A) (chunk : bytes) : res * fs A :=
      match fl_state (fs_full s) with
      | FL_INPUTS_STARTED =>
          on_input input_cb s (fun _ i => low_input_add_context_extension i chunk) low_input_finished
      | _ => full_res_error s R_BAD_STATE
      end.

    (** tx_ser_full.c:273-285 *)
    Fixpoint low_data_inputs_loop (fuel : nat) (s : fs A) (inputs : bytes) : res * fs A :=
      match fuel with
      | O => (R_UB, s)
      | S k =>
          match inputs with
          | [] => (R_OK, s)
          | _ =>
              if fl_data_inputs_count (fs_full s) =? 0 then full_res_error s R_TOO_MANY_DATA_INPUTS
              else match read_bytes ERGO_ID_LEN inputs with
                   | None => full_res_error s R_BAD_DATA_INPUT
                   | Some (id, rest) =>
                       go (update F S_MAIN (fs_hash s) id)
                          (fun r h => full_res_error (fs_with_hash s h) r) (fun h =>
                       let s := fs_with_hash s h in
                       let s := fs_with_full s (full_set_data (fs_full s)
                                                  (fl_data_inputs_count (fs_full s) - 1)) in
                       low_data_inputs_loop k s rest)
                   end
          end
      end.
    (** tx_ser_full.c:269-290 *)
    Definition low_full_add_data_inputs (s : fs A) (inputs : bytes) : res * fs A :=
      match fl_state (fs_full s) with
      | FL_DATA_INPUTS_STARTED =>
          go (low_data_inputs_loop (S (length inputs)) s inputs) pair (fun s' =>
          if fl_data_inputs_count (fs_full s') =? 0 then low_data_inputs_finished s'
          else (R_MORE_DATA, s'))
      | _ => full_res_error s R_BAD_STATE
      end.

    (** tx_ser_full.c:292-312 *)
    Definition low_full_add_box (s : fs A) (value tree_size height tokens_count regs_size : N)
      : res * fs A :=
      match fl_state (fs_full s) with
      | FL_OUTPUTS_STARTED =>
          if fl_outputs_count (fs_full s) =? 0 then full_res_error s R_TOO_MANY_OUTPUTS
          else
            let '(r, b) := low_box_init value tree_size height tokens_count regs_size
                                        (fs_hash s) (fs_cb s) in
            let s := mk_fs (full_set_union (fs_full s) (FU_BOX (bs_box b) false))
                           (bs_hash b) (bs_cb b) in
            if res_pass r then (R_OK, s) else full_res_error s r
      | _ => full_res_error s R_BAD_STATE
      end.

    (** tx_ser_full.c:314-328 *)
    Definition low_full_add_box_ergo_tree (s : fs A) (chunk : bytes) : res * fs A :=
      match fl_state (fs_full s) with
      | FL_OUTPUTS_STARTED => on_box box_cb s (fun cb x => low_box_add_tree cb x chunk) true
      | _ => full_res_error s R_BAD_STATE
      end.
    (** tx_ser_full.c:330-343 *)
    Definition low_full_add_box_change_tree (s : fs A) (raw_pub_key : bytes) : res * fs A :=
      match fl_state (fs_full s) with
      | FL_OUTPUTS_STARTED => on_box box_cb s (fun cb x => low_box_add_change_tree cb x raw_pub_key) false
      | _ => full_res_error s R_BAD_STATE
      end.
    (** tx_ser_full.c:345-358 *)
    Definition low_full_add_box_miners_fee_tree (s : fs A) (is_mainnet : bool) : res * fs A :=
      match fl_state (fs_full s) with
      | FL_OUTPUTS_STARTED => on_box box_cb s (fun cb x => low_box_add_miners_fee_tree cb x is_mainnet) false
      | _ => full_res_error s R_BAD_STATE
      end.
    (** tx_ser_full.c:360-375 *)
    Definition low_full_add_box_tokens (s : fs A) (tokens : bytes) : res * fs A :=
      match fl_state (fs_full s) with
      | FL_OUTPUTS_STARTED =>
          on_box box_cb s (fun cb x => low_box_add_tokens cb x tokens
                                         (Some (fl_distinct (fs_full s), tget (fs_cb s)))) true
      | _ => full_res_error s R_BAD_STATE
      end.
    (** tx_ser_full.c:377-386 *)
    Definition low_full_add_box_registers (s : fs A) (chunk : bytes) : res * fs A :=
      match fl_state (fs_full s) with
      | FL_OUTPUTS_STARTED =>
          match fl_union (fs_full s) with
          | FU_BOX b set =>
              let '(r, x) := low_box_add_registers (if set then box_cb else no_box_callbacks)
                               (mk_bs b (fs_hash s) (fs_cb s)) chunk in
              let s := mk_fs (full_set_union (fs_full s) (FU_BOX (bs_box x) set))
                             (bs_hash x) (bs_cb x) in
              match r with
              | R_OK => output_finished s
              | R_MORE_DATA => (R_MORE_DATA, s)
              | _ => full_res_error s r
              end
          | _ => (R_UB, s)
          end
      | _ => full_res_error s R_BAD_STATE
      end.
  End LowFull.
End LowTx.
