(** src/ergo/tx_ser_input.c, tx_ser_input.h: serializer of one input. *)
From Verif Require Import Base TxTable.

(** tx_ser_input.h:29-34 *)
Inductive input_state := IN_FRAMES_STARTED | IN_EXTENSION_STARTED | IN_FINISHED | IN_ERROR.

(** tx_ser_input.h:42-52 (callback, hash and table pointers are kept outside). *)
Record input_ctx := mk_input {
  in_state : input_state;
  in_box_id : bytes;
  in_frames_count : N;
  in_frames_processed : N;
  in_ext_size : N }.

Definition in_set_state (c : input_ctx) (s : input_state) : input_ctx :=
  mk_input s (in_box_id c) (in_frames_count c) (in_frames_processed c) (in_ext_size c).

(** tx_ser_input.c:22: the context after memset. *)
Definition input_zero : input_ctx := mk_input IN_FRAMES_STARTED zero_id 0 0 0.

(** Input context, hash stream and callback context. *)
Record ins (A : Type) := mk_ins { is_in : input_ctx; is_hash : bytes; is_cb : A }.
Arguments mk_ins {A}. Arguments is_in {A}. Arguments is_hash {A}. Arguments is_cb {A}.

(** tx_ser_input.c:15-38 *)
Definition input_init (box_id : bytes) (frames_count ext_size : N) : res * input_ctx :=
  if (ext_size =? 1) || (MAX_TX_DATA_PART_LEN <? ext_size) then
    (R_BAD_CONTEXT_EXTENSION_SIZE, in_set_state input_zero IN_ERROR)
  else (R_OK, mk_input IN_FRAMES_STARTED box_id frames_count 0 ext_size).

Section Input.
  Context {A : Type}.
  (** on_token_cb(box_id, token_id, value, context); [None] is NULL. *)
  Variable on_token_cb : option (bytes -> token_id -> N -> A -> res * A).

  Definition ins_with_state (s : ins A) (st : input_state) : ins A :=
    mk_ins (in_set_state (is_in s) st) (is_hash s) (is_cb s).
  (** tx_ser_input.c:8-13 *)
  Definition input_res_error (s : ins A) (r : res) : res * ins A :=
    (r, ins_with_state s IN_ERROR).

  (** tx_ser_input.c:55-73 *)
  Fixpoint input_tokens_loop (fuel : nat) (s : ins A) (tokens : bytes) : res * ins A :=
    match fuel with
    | O => (R_UB, s)
    | S k =>
        match tokens with
        | [] => (R_OK, s)
        | _ =>
            match read_bytes ERGO_ID_LEN tokens with
            | None => input_res_error s R_BAD_TOKEN_ID
            | Some (id, rest) =>
                match read_u64 rest with
                | None => input_res_error s R_BAD_TOKEN_VALUE
                | Some (value, rest') =>
                    match on_token_cb with
                    | None => input_tokens_loop k s rest'
                    | Some f =>
                        let '(r, a) := f (in_box_id (is_in s)) id value (is_cb s) in
                        let s := mk_ins (is_in s) (is_hash s) a in
                        match r with
                        | R_OK => input_tokens_loop k s rest'
                        | _ => input_res_error s r
                        end
                    end
                end
            end
        end
    end.

  (** tx_ser_input.c:74-95: after the loop.  [frames_processed] is a uint8_t. *)
  Definition input_frame_done (s : ins A) (box_id : bytes) : res * ins A :=
    let c := is_in s in
    let p := u8 (in_frames_processed c + 1) in
    let c := mk_input (in_state c) (in_box_id c) (in_frames_count c) p (in_ext_size c) in
    if p =? in_frames_count c then
      if in_ext_size c =? 0 then
        (R_OK, mk_ins (in_set_state c IN_FINISHED) (is_hash s ++ box_id ++ [0] ++ [0]) (is_cb s))
      else
        (R_OK, mk_ins (in_set_state c IN_EXTENSION_STARTED) (is_hash s ++ box_id ++ [0]) (is_cb s))
    else (R_MORE_DATA, mk_ins c (is_hash s) (is_cb s)).

  (** tx_ser_input.c:40-96 *)
  Definition input_add_tokens (s : ins A) (box_id : bytes) (frame_index : N) (tokens : bytes)
    : res * ins A :=
    match in_state (is_in s) with
    | IN_FRAMES_STARTED =>
        if negb (bytes_eqb (in_box_id (is_in s)) box_id) then input_res_error s R_BAD_INPUT_ID
        else if in_frames_count (is_in s) <=? frame_index then
          input_res_error s R_TOO_MANY_INPUT_FRAMES
        else if negb (frame_index =? in_frames_processed (is_in s)) then
          input_res_error s R_BAD_FRAME_INDEX
        else match input_tokens_loop (S (length tokens)) s tokens with
             | (R_OK, s') => input_frame_done s' box_id
             | (r, s') => (r, s')
             end
    | _ => input_res_error s R_BAD_STATE
    end.

  (** tx_ser_input.c:98-115.  TOO_MUCH_PROOF_DATA is R_TOO_MUCH_DATA (tx_ser_full.c:75-76). *)
  Definition input_add_context_extension (s : ins A) (chunk : bytes) : res * ins A :=
    match in_state (is_in s) with
    | IN_EXTENSION_STARTED =>
        let c := is_in s in
        let len := blen chunk in
        if in_ext_size c <? len then input_res_error s R_TOO_MUCH_DATA
        else
          let c' := mk_input (in_state c) (in_box_id c) (in_frames_count c)
                             (in_frames_processed c) (in_ext_size c - len) in
          let h := is_hash s ++ chunk in
          if in_ext_size c' =? 0 then (R_OK, mk_ins (in_set_state c' IN_FINISHED) h (is_cb s))
          else (R_MORE_DATA, mk_ins c' h (is_cb s))
    | _ => input_res_error s R_BAD_STATE
    end.
End Input.
