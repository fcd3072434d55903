(** The serializers of src/ergo/tx_ser_*.c once more, taking their data from a buffer_t
    (see ReadBuf).  Functions that read no data are reused. *)
From Verif Require Import Base Gve RwBuffer TxTable TxBox TxInput TxFull ReadBuf.

(** Iterations of [while (buffer_data_len(b) > 0)]: each consumes data or stops. *)
Definition rounds (b : rwb) : nat := S (N.to_nat (rw_buffer_data_len b)).

(** tx_ser_table.c:4-14 *)
Definition raw_parse_token (b : rwb) (t : token_table) (tokens_max : N) : res * rwb * token_table :=
  if tokens_max <=? blen t then (R_TOO_MANY_TOKENS, b, t)
  else match rw_buffer_read_bytes b 32 with
       | B_ok b id => (R_OK, b, t ++ [id])
       | B_fail b => (R_BAD_TOKEN_ID, b, t ++ [zero_id])
       | B_ub => (R_UB, b, t)
       end.
(** tx_ser_table.c:36-42 *)
Fixpoint raw_table_add_loop (fuel : nat) (distinct : N) (b : rwb) (t : token_table) : res * token_table :=
  match fuel with
  | O => (R_UB, t)
  | S k =>
      if 0 <? rw_buffer_data_len b then
        match raw_parse_token b t distinct with
        | (R_OK, b, t) => raw_table_add_loop k distinct b t
        | (r, _, t) => (r, t)
        end
      else (R_OK, t)
  end.
(** tx_ser_table.c:33-47 *)
Definition raw_table_add (distinct : N) (b : rwb) (t : token_table) : res * token_table :=
  match raw_table_add_loop (rounds b) distinct b t with
  | (R_OK, t) => (if table_is_finished distinct t then R_OK else R_MORE_DATA, t)
  | (r, t) => (r, t)
  end.

(** * Boxes *)
Section RawBox.
  Context {A : Type}.
  Variable cb : box_callbacks A.

  (** tx_ser_box.c:128-151 *)
  Definition raw_box_add_tree (s : bs A) (b : rwb) : res * bs A :=
    match bx_state (bs_box s) with
    | BX_INITIALIZED =>
        let len := rw_buffer_data_len b in
        let size := bx_tree_size (bs_box s) in
        if size <? len then box_res_error s R_TOO_MUCH_DATA
        else if (len <? size) && (len <? MAX_DATA_CHUNK_LEN) then box_res_error s R_SMALL_CHUNK
        else match peek b 0 len with
        | None => (R_UB, s)
        | Some chunk =>
            let s := bs_feed s chunk in
            match rw_buffer_seek_read_cur b len with
            | B_ok _ _ =>
                let s := bs_with_box s (box_set_tree_size (bs_box s) (size - len)) in
                if size - len =? 0 then
                  ergo_tree_added cb (bs_with_box s (box_set_type (bs_box s) BT_TREE))
                else (R_MORE_DATA, s)
            | B_fail _ => box_res_error s R_BUFFER
            | B_ub => (R_UB, s)
            end
        end
    | _ => box_res_error s R_BAD_STATE
    end.

  (** tx_ser_box.c:227-248 *)
  Definition raw_box_token_value (s : bs A) (id : token_id) (b : rwb) : res * bs A * rwb :=
    match rw_buffer_read_int true 8 b with
    | B_ub => (R_UB, s, b)
    | B_fail b => (box_res_error s R_BAD_TOKEN_VALUE, b)
    | B_ok b value =>
        let s := bs_feed s (gve_put_u64 value) in
        let dec s := bs_with_box s (box_set_tokens_count (bs_box s)
                                      (bx_tokens_count (bs_box s) - 1)) in
        match on_token cb with
        | None => (R_OK, dec s, b)
        | Some f =>
            let '(r, a) := f (bx_type (bs_box s)) id value (bs_cb s) in
            let s := bs_with_cb s a in
            if res_pass r then (R_OK, dec s, b) else (box_res_error s r, b)
        end
    end.

  (** tx_ser_box.c:188-249 *)
  Definition raw_box_one_token (table : option (N * token_table)) (s : bs A) (b : rwb)
    : res * bs A * rwb :=
    if bx_tokens_count (bs_box s) =? 0 then (box_res_error s R_TOO_MANY_TOKENS, b)
    else match table with
    | None =>
        match rw_buffer_read_bytes b 32 with
        | B_ub => (R_UB, s, b)
        | B_fail b => (box_res_error s R_BAD_TOKEN_ID, b)
        | B_ok b id => raw_box_token_value (bs_feed s id) id b
        end
    | Some (distinct, ids) =>
        match rw_buffer_read_int true 4 b with
        | B_ub => (R_UB, s, b)
        | B_fail b => (R_BAD_TOKEN_INDEX, s, b)
        | B_ok b index =>
            if distinct <=? index then (box_res_error s R_BAD_TOKEN_INDEX, b)
            else raw_box_token_value (bs_feed s (gve_put_u32 index))
                                     (nth (N.to_nat index) ids zero_id) b
        end
    end.

  (** tx_ser_box.c:188-249 *)
  Fixpoint raw_box_tokens_loop (fuel : nat) (table : option (N * token_table)) (s : bs A) (b : rwb)
    : res * bs A :=
    match fuel with
    | O => (R_UB, s)
    | S k =>
        if 0 <? rw_buffer_data_len b then
          match raw_box_one_token table s b with
          | (R_OK, s, b) => raw_box_tokens_loop k table s b
          | (r, s, _) => (r, s)
          end
        else (R_OK, s)
    end.

  (** tx_ser_box.c:181-260 *)
  Definition raw_box_add_tokens (s : bs A) (b : rwb) (table : option (N * token_table)) : res * bs A :=
    match bx_state (bs_box s) with
    | BX_TREE_ADDED =>
        match raw_box_tokens_loop (rounds b) table s b with
        | (R_OK, s) => box_tokens_done cb s
        | (r, s) => (r, s)
        end
    | _ => box_res_error s R_BAD_STATE
    end.

  (** tx_ser_box.c:262-281 *)
  Definition raw_box_add_registers (s : bs A) (b : rwb) : res * bs A :=
    match bx_state (bs_box s) with
    | BX_TOKENS_ADDED =>
        let len := rw_buffer_data_len b in
        let size := bx_regs_size (bs_box s) in
        if size <? len then box_res_error s R_TOO_MUCH_DATA
        else match peek b 0 len with
        | None => (R_UB, s)
        | Some chunk =>
            let s := bs_feed s chunk in
            match rw_buffer_seek_read_cur b len with
            | B_ok _ _ =>
                let s := bs_with_box s (box_set_regs_size (bs_box s) (size - len)) in
                if size - len =? 0 then box_finished cb s else (R_MORE_DATA, s)
            | B_fail _ => box_res_error s R_BUFFER
            | B_ub => (R_UB, s)
            end
        end
    | _ => box_res_error s R_BAD_STATE
    end.
End RawBox.

(** * Inputs *)
Section RawInput.
  Context {A : Type}.
  Variable on_token_cb : option (bytes -> token_id -> N -> A -> res * A).

  (** tx_ser_input.c:55-73 *)
  Fixpoint raw_input_tokens_loop (fuel : nat) (s : ins A) (b : rwb) : res * ins A :=
    match fuel with
    | O => (R_UB, s)
    | S k =>
        if 0 <? rw_buffer_data_len b then
          match rw_buffer_read_bytes b 32 with
          | B_ub => (R_UB, s)
          | B_fail _ => input_res_error s R_BAD_TOKEN_ID
          | B_ok b id =>
              match rw_buffer_read_int true 8 b with
              | B_ub => (R_UB, s)
              | B_fail _ => input_res_error s R_BAD_TOKEN_VALUE
              | B_ok b value =>
                  match on_token_cb with
                  | None => raw_input_tokens_loop k s b
                  | Some f =>
                      let '(r, a) := f (in_box_id (is_in s)) id value (is_cb s) in
                      let s := mk_ins (is_in s) (is_hash s) a in
                      match r with
                      | R_OK => raw_input_tokens_loop k s b
                      | _ => input_res_error s r
                      end
                  end
              end
          end
        else (R_OK, s)
    end.

  (** tx_ser_input.c:40-96 *)
  Definition raw_input_add_tokens (s : ins A) (box_id : bytes) (frame_index : N) (tokens : rwb)
    : res * ins A :=
    match in_state (is_in s) with
    | IN_FRAMES_STARTED =>
        if negb (bytes_eqb (in_box_id (is_in s)) box_id) then input_res_error s R_BAD_INPUT_ID
        else if in_frames_count (is_in s) <=? frame_index then
          input_res_error s R_TOO_MANY_INPUT_FRAMES
        else if negb (frame_index =? in_frames_processed (is_in s)) then
          input_res_error s R_BAD_FRAME_INDEX
        else match raw_input_tokens_loop (rounds tokens) s tokens with
             | (R_OK, s) => input_frame_done s box_id
             | (r, s) => (r, s)
             end
    | _ => input_res_error s R_BAD_STATE
    end.

  (** tx_ser_input.c:98-115 *)
  Definition raw_input_add_context_extension (s : ins A) (b : rwb) : res * ins A :=
    match in_state (is_in s) with
    | IN_EXTENSION_STARTED =>
        let c := is_in s in
        let len := rw_buffer_data_len b in
        if in_ext_size c <? len then input_res_error s R_TOO_MUCH_DATA
        else match peek b 0 len with
        | None => (R_UB, s)
        | Some chunk =>
            let c' := mk_input (in_state c) (in_box_id c) (in_frames_count c)
                               (in_frames_processed c) (in_ext_size c - len) in
            let h := is_hash s ++ chunk in
            if in_ext_size c' =? 0 then (R_OK, mk_ins (in_set_state c' IN_FINISHED) h (is_cb s))
            else (R_MORE_DATA, mk_ins c' h (is_cb s))
        end
    | _ => input_res_error s R_BAD_STATE
    end.
End RawInput.

(** * The whole transaction *)
Section RawFull.
  Context {A : Type}.
  Variable tget : A -> token_table.
  Variable tset : token_table -> A -> A.
  Variable box_cb : box_callbacks A.
  Variable input_cb : bytes -> token_id -> N -> A -> res * A.

  (** tx_ser_full.c:198-211 *)
  Definition raw_full_add_tokens (s : fs A) (tokens : rwb) : res * fs A :=
    match fl_state (fs_full s) with
    | FL_TOKENS_STARTED =>
        let '(r, t) := raw_table_add (fl_distinct (fs_full s)) tokens (tget (fs_cb s)) in
        let s := mk_fs (fs_full s) (fs_hash s) (tset t (fs_cb s)) in
        match r with
        | R_OK => (R_OK, fs_with_full s
                    (full_set_union (full_set_state (fs_full s) FL_INPUTS_STARTED)
                                    (FU_INPUT input_finished_ctx false)))
        | R_MORE_DATA => (R_MORE_DATA, s)
        | _ => full_res_error s r
        end
    | _ => full_res_error s R_BAD_STATE
    end.

  (** tx_ser_full.c:238-255 *)
  Definition raw_full_add_input_tokens (s : fs A) (box_id : bytes) (frame_index : N) (tokens : rwb)
    : res * fs A :=
    match fl_state (fs_full s) with
    | FL_INPUTS_STARTED =>
        on_input input_cb s (fun cb i => raw_input_add_tokens cb i box_id frame_index tokens)
          (fun s => match fl_union (fs_full s) with
                    | FU_INPUT c _ => match in_state c with
                                      | IN_FINISHED => input_finished tget s
                                      | _ => (R_OK, s)
                                      end
                    | _ => (R_UB, s)
                    end)
    | _ => full_res_error s R_BAD_STATE
    end.

  (** tx_ser_full.c:257-267 *)
  Definition raw_full_add_input_context_extension (s : fs A) (b : rwb) : res * fs A :=
    match fl_state (fs_full s) with
    | FL_INPUTS_STARTED =>
        on_input input_cb s (fun _ i => raw_input_add_context_extension i b) (input_finished tget)
    | _ => full_res_error s R_BAD_STATE
    end.

  (** tx_ser_full.c:273-285 *)
  Fixpoint raw_data_inputs_loop (fuel : nat) (s : fs A) (b : rwb) : res * fs A :=
    match fuel with
    | O => (R_UB, s)
    | S k =>
        if 0 <? rw_buffer_data_len b then
          if fl_data_inputs_count (fs_full s) =? 0 then full_res_error s R_TOO_MANY_DATA_INPUTS
          else match rw_buffer_read_bytes b 32 with
               | B_ub => (R_UB, s)
               | B_fail _ => full_res_error s R_BAD_DATA_INPUT
               | B_ok b id =>
                   let s := fs_feed s id in
                   let s := fs_with_full s (full_set_data (fs_full s)
                                              (fl_data_inputs_count (fs_full s) - 1)) in
                   raw_data_inputs_loop k s b
               end
        else (R_OK, s)
    end.
  (** tx_ser_full.c:269-290 *)
  Definition raw_full_add_data_inputs (s : fs A) (b : rwb) : res * fs A :=
    match fl_state (fs_full s) with
    | FL_DATA_INPUTS_STARTED =>
        match raw_data_inputs_loop (rounds b) s b with
        | (R_OK, s) => if fl_data_inputs_count (fs_full s) =? 0 then data_inputs_finished tget s
                       else (R_MORE_DATA, s)
        | (r, s) => (r, s)
        end
    | _ => full_res_error s R_BAD_STATE
    end.

  (** tx_ser_full.c:314-328 *)
  Definition raw_full_add_box_ergo_tree (s : fs A) (b : rwb) : res * fs A :=
    match fl_state (fs_full s) with
    | FL_OUTPUTS_STARTED => on_box box_cb s (fun cb x => raw_box_add_tree cb x b) true
    | _ => full_res_error s R_BAD_STATE
    end.
  (** tx_ser_full.c:360-375 *)
  Definition raw_full_add_box_tokens (s : fs A) (b : rwb) : res * fs A :=
    match fl_state (fs_full s) with
    | FL_OUTPUTS_STARTED =>
        on_box box_cb s (fun cb x => raw_box_add_tokens cb x b
                                       (Some (fl_distinct (fs_full s), tget (fs_cb s)))) true
    | _ => full_res_error s R_BAD_STATE
    end.
  (** tx_ser_full.c:377-386 *)
  Definition raw_full_add_box_registers (s : fs A) (b : rwb) : res * fs A :=
    match fl_state (fs_full s) with
    | FL_OUTPUTS_STARTED =>
        match fl_union (fs_full s) with
        | FU_BOX c set =>
            let '(r, x) := raw_box_add_registers (if set then box_cb else no_box_callbacks)
                             (mk_bs c (fs_hash s) (fs_cb s)) b in
            let s := mk_fs (full_set_union (fs_full s) (FU_BOX (bs_box x) set))
                           (bs_hash x) (bs_cb x) in
            match r with
            | R_OK => output_finished s
            | R_MORE_DATA => (R_MORE_DATA, s)
            | _ => full_res_error s r
            end
        | _ => (R_UB, s)
        end
    | _ => full_res_error s R_BAD_STATE
    end.
End RawFull.
