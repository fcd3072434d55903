(** src/commands/signtx/operations/stx_op_p2pk.c: the P2PK signing operation, and the
    pages of src/commands/signtx/stx_ui.c.
    Every error of these functions ends in app_set_current_command(CMD_NONE)
    (stx_op_p2pk.c:25-29 and the caller's handler_err), which wipes the context; the
    functions therefore return only the status word on error and the caller resets. *)
From Coq Require Import String.
From Verif Require Import Base Env Bip32 Address ErgoTree Schnorr TxTable TxBox TxInput TxFull
  Amounts OutputInfo Format UiFlow.

(** stx_op_p2pk.h: operation states *)
Inductive op_state :=
| OP_INITIALIZED | OP_TX_STARTED | OP_INPUTS_STARTED | OP_OUTPUTS_STARTED
| OP_TX_FINISHED | OP_FINALIZED.

(** stx_op_p2pk.h: the transaction member of the union.  [tx_output] is [None] while its
    memory has not been initialised; [tx_last_approved] is the path ([] when its length
    is 0). *)
Record tx_data := mk_tx {
  tx_full : full;
  tx_output : option output_info;
  tx_last_approved : path }.

(** stx_op_p2pk.h: union of transaction / ui_approve / ui_confirm. *)
Inductive op_union :=
| OU_APPROVE (app_token : N)
| OU_TX (t : tx_data)
| OU_CONFIRM.

(** stx_op_p2pk.h: sign_transaction_operation_p2pk_ctx_t *)
Record p2pk := mk_p2pk {
  op_state_of : op_state;
  op_key : bytes;
  op_path : path;
  op_hash : bytes;
  op_network : N;
  op_amounts : amounts;
  op_union_of : op_union }.

Definition op_set_state (c : p2pk) (s : op_state) : p2pk :=
  mk_p2pk s (op_key c) (op_path c) (op_hash c) (op_network c) (op_amounts c) (op_union_of c).
Definition op_set_union (c : p2pk) (u : op_union) : p2pk :=
  mk_p2pk (op_state_of c) (op_key c) (op_path c) (op_hash c) (op_network c) (op_amounts c) u.

(** Outcome of a function that returns a status word. *)
Inductive out (A : Type) := Ok (a : A) | Fail (s : sw).
Arguments Ok {A}. Arguments Fail {A}.

(** The part of the context the serializer's callbacks update. *)
Definition cbctx := (amounts * option output_info)%type.

Section Op.
  Variable E : env.

  (** stx_op_p2pk.c:31-38 *)
  Definition p2pk_input_token_cb (_ : bytes) (tn_id : token_id) (value : N) (c : cbctx)
    : res * cbctx :=
    let '(r, a) := amounts_add_input_token (fst c) tn_id value in (r, (a, snd c)).
  (** stx_op_p2pk.c:40-44 *)
  Definition p2pk_output_type_cb (type : box_type) (value : N) (c : cbctx) : res * cbctx :=
    let '(r, a) := amounts_add_output (fst c) type value in (r, (a, snd c)).
  (** stx_op_p2pk.c:46-56 *)
  Definition p2pk_output_token_cb (_ : box_type) (id : token_id) (value : N) (c : cbctx)
    : res * cbctx :=
    match snd c with
    | None => (R_UB, c)
    | Some o =>
        match output_info_add_token o (am_table (fst c)) id value with
        | (R_OK, o') =>
            let '(r, a) := amounts_add_output_token (fst c) id value in (r, (a, Some o'))
        | (r, o') => (r, (fst c, Some o'))
        end
    end.
  (** stx_op_p2pk.c:58-63 *)
  Definition p2pk_output_finished_cb (_ : box_type) (c : cbctx) : res * cbctx :=
    match snd c with
    | None => (R_UB, c)
    | Some o => let '(r, o') := output_info_set_box_finished (e_blake E) o in (r, (fst c, Some o'))
    end.

  Definition op_tget (c : cbctx) : token_table := am_table (fst c).
  Definition op_tset (t : token_table) (c : cbctx) : cbctx := (am_set_table t (fst c), snd c).
  Definition op_box_cb : box_callbacks cbctx :=
    mk_box_callbacks (Some p2pk_output_type_cb) (Some p2pk_output_token_cb)
                     (Some p2pk_output_finished_cb).

  (** stx_op_p2pk.c:65-99.  The union is ui_approve from the start; its token is set by
      show_token_and_path. *)
  Definition p2pk_init (nonces : list bytes) (p : path) (network : N) : out p2pk :=
    if negb (ergo_path_validate p V_ADDRESS_GE5) then Fail SW_BIP32_BAD_PATH
    else if negb (network_id_is_supported network) then Fail SW_BAD_NET_TYPE_VALUE
    else match e_derive E p with
    | None => Fail SW_INTERNAL_CRYPTO_ERROR
    | Some (secret, _) =>
        match schnorr_sign_init E secret nonces with
        | None => Fail SW_INTERNAL_CRYPTO_ERROR
        | Some (hash, key) =>
            Ok (mk_p2pk OP_INITIALIZED key p hash network (mk_amounts 0 0 (repeat 0%Z 20) [])
                        (OU_APPROVE 0))
        end
    end.

  (** Result codes of the serializer turned into status words (helpers/sw_result.h);
      R_OK and R_MORE_DATA both give SW_OK. *)
  Definition tx_result (r : res) : option sw :=
    match sw_of_res r with SW_OK => None | s => Some s end.

  (** Serializer state of the context, and back. *)
  Definition op_fs (c : p2pk) (t : tx_data) : fs cbctx :=
    mk_fs (tx_full t) (op_hash c) (op_amounts c, tx_output t).
  Definition op_put (c : p2pk) (t : tx_data) (s : fs cbctx) : p2pk :=
    mk_p2pk (op_state_of c) (op_key c) (op_path c) (fs_hash s) (op_network c) (fst (fs_cb s))
            (OU_TX (mk_tx (fs_full s) (snd (fs_cb s)) (tx_last_approved t))).

  (** CHECK_TX_CALL_RESULT_OK (stx_op_p2pk.c:17-18) of one serializer call. *)
  Definition tx_call (c : p2pk) (call : fs cbctx -> res * fs cbctx) : out p2pk :=
    match op_union_of c with
    | OU_TX t =>
        let '(r, s) := call (op_fs c t) in
        match tx_result r with
        | Some e => Fail e
        | None => Ok (op_put c t s)
        end
    | _ => Fail SW_UB
    end.

  Definition bind {A B} (x : out A) (f : A -> out B) : out B :=
    match x with Ok a => f a | Fail s => Fail s end.

  (** CHECK_TX_FINISHED (stx_op_p2pk.c:20-23) *)
  Definition check_tx_finished (c : p2pk) : out p2pk :=
    match op_union_of c with
    | OU_TX t => match fl_state (tx_full t) with
                 | FL_FINISHED => Ok (op_set_state c OP_TX_FINISHED)
                 | _ => Ok c
                 end
    | _ => Fail SW_UB
    end.

  (** Calls on the output info (CHECK_CALL_RESULT_SW_OK). *)
  Definition output_call (c : p2pk) (call : output_info -> sw * output_info) : out p2pk :=
    match op_union_of c with
    | OU_TX t =>
        match tx_output t with
        | None => Fail SW_UB
        | Some o =>
            match call o with
            | (SW_OK, o') => Ok (op_set_union c (OU_TX (mk_tx (tx_full t) (Some o') (tx_last_approved t))))
            | (s, _) => Fail s
            end
        end
    | _ => Fail SW_UB
    end.

  (** stx_op_p2pk.c:101-118.  full_init clears the serializer context; the rest of the
      union keeps its bytes: the output info is not initialised, last_approved_change lies
      beyond the end of ui_approve and is still zero from app_set_current_command. *)
  Definition p2pk_start_tx (c : p2pk) (inputs data_inputs outputs tokens : N) : out p2pk :=
    match op_state_of c with
    | OP_INITIALIZED =>
        let '(r, s) := full_init op_tget op_tset inputs data_inputs outputs tokens
                                 (op_hash c) (op_amounts c, None) in
        match tx_result r with
        | Some e => Fail e
        | None =>
            Ok (mk_p2pk OP_TX_STARTED (op_key c) (op_path c) (fs_hash s) (op_network c)
                        amounts_init (OU_TX (mk_tx (fs_full s) None [])))
        end
    | _ => Fail SW_BAD_STATE
    end.

  (** stx_op_p2pk.c:120-125 *)
  Definition p2pk_add_tokens (c : p2pk) (data : bytes) : out p2pk :=
    match op_state_of c with
    | OP_TX_STARTED => tx_call c (fun s => full_add_tokens op_tget op_tset s data)
    | _ => Fail SW_BAD_STATE
    end.

  (** stx_op_p2pk.c:127-151 *)
  Definition p2pk_add_input (c : p2pk) (box_id : bytes) (erg_amount frames_count ext_len : N)
    : out p2pk :=
    let go :=
      bind (tx_call c (fun s => full_add_input s box_id frames_count ext_len)) (fun c =>
      bind (tx_call c full_set_input_callback) (fun c =>
      match amounts_add_input (op_amounts c) erg_amount with
      | (SW_OK, a) =>
          Ok (mk_p2pk OP_INPUTS_STARTED (op_key c) (op_path c) (op_hash c) (op_network c) a
                      (op_union_of c))
      | (s, _) => Fail s
      end)) in
    match op_state_of c with
    | OP_TX_STARTED | OP_INPUTS_STARTED => go
    | _ => Fail SW_BAD_STATE
    end.

  (** stx_op_p2pk.c:153-164 *)
  Definition p2pk_add_input_tokens (c : p2pk) (box_id : bytes) (frame_index : N) (tokens : bytes)
    : out p2pk :=
    match op_state_of c with
    | OP_INPUTS_STARTED =>
        tx_call c (fun s => full_add_input_tokens op_tget p2pk_input_token_cb s box_id
                                                  frame_index tokens)
    | _ => Fail SW_BAD_STATE
    end.

  (** stx_op_p2pk.c:166-173 *)
  Definition p2pk_add_input_context_extension (c : p2pk) (data : bytes) : out p2pk :=
    match op_state_of c with
    | OP_INPUTS_STARTED =>
        tx_call c (fun s => full_add_input_context_extension op_tget p2pk_input_token_cb s data)
    | _ => Fail SW_BAD_STATE
    end.

  (** stx_op_p2pk.c:175-181 *)
  Definition p2pk_add_data_inputs (c : p2pk) (data : bytes) : out p2pk :=
    match op_state_of c with
    | OP_INPUTS_STARTED => tx_call c (fun s => full_add_data_inputs op_tget s data)
    | _ => Fail SW_BAD_STATE
    end.

  (** stx_op_p2pk.c:183-213 *)
  Definition p2pk_add_output (c : p2pk) (value tree_size height tokens_count regs_size : N)
    : out p2pk :=
    let go :=
      bind (tx_call c (fun s => full_add_box s value tree_size height tokens_count regs_size))
           (fun c =>
      bind (tx_call c full_set_box_callbacks) (fun c =>
      match op_union_of c with
      | OU_TX t =>
          Ok (op_set_state
                (op_set_union c (OU_TX (mk_tx (tx_full t) (Some (output_info_init value))
                                              (tx_last_approved t))))
                OP_OUTPUTS_STARTED)
      | _ => Fail SW_UB
      end)) in
    match op_state_of c with
    | OP_INPUTS_STARTED | OP_OUTPUTS_STARTED => go
    | _ => Fail SW_BAD_STATE
    end.

  (** stx_op_p2pk.c:215-244 *)
  Definition p2pk_add_output_tree_chunk (c : p2pk) (data : bytes) : out p2pk :=
    match op_state_of c with
    | OP_OUTPUTS_STARTED =>
        match op_union_of c with
        | OU_TX t =>
            let '(r, s) := full_add_box_ergo_tree op_box_cb (op_fs c t) data in
            let go is_finished :=
              bind (output_call (op_put c t s)
                      (fun o => output_info_add_tree_chunk (e_blake E) o data is_finished))
                   check_tx_finished in
            match r with
            | R_OK => go true
            | R_MORE_DATA => go false
            | _ => Fail (sw_of_res r)
            end
        | _ => Fail SW_UB
        end
    | _ => Fail SW_BAD_STATE
    end.

  (** stx_op_p2pk.c:246-255 *)
  Definition p2pk_add_output_tree_fee (c : p2pk) : out p2pk :=
    match op_state_of c with
    | OP_OUTPUTS_STARTED =>
        bind (tx_call c (fun s => full_add_box_miners_fee_tree op_box_cb s
                                    (network_id_is_mainnet (op_network c)))) (fun c =>
        bind (output_call c (output_info_set_fee (e_blake E))) check_tx_finished)
    | _ => Fail SW_BAD_STATE
    end.

  (** stx_op_p2pk.c:257-269 *)
  Definition p2pk_add_output_tree_change (c : p2pk) (p : path) (pub_key : bytes) : out p2pk :=
    match op_state_of c with
    | OP_OUTPUTS_STARTED =>
        bind (tx_call c (fun s => full_add_box_change_tree op_box_cb s pub_key)) (fun c =>
        bind (output_call c (fun o => output_info_set_bip32 (e_blake E) o p)) check_tx_finished)
    | _ => Fail SW_BAD_STATE
    end.

  (** stx_op_p2pk.c:271-278 *)
  Definition p2pk_add_output_tokens (c : p2pk) (data : bytes) : out p2pk :=
    match op_state_of c with
    | OP_OUTPUTS_STARTED =>
        bind (tx_call c (fun s => full_add_box_tokens op_tget op_box_cb s data)) check_tx_finished
    | _ => Fail SW_BAD_STATE
    end.

  (** stx_op_p2pk.c:280-287 *)
  Definition p2pk_add_output_registers (c : p2pk) (data : bytes) : out p2pk :=
    match op_state_of c with
    | OP_OUTPUTS_STARTED =>
        bind (tx_call c (fun s => full_add_box_registers op_box_cb s data)) check_tx_finished
    | _ => Fail SW_BAD_STATE
    end.

  (** stx_op_p2pk.c:289-321.  [None]: uninitialised memory would be read. *)
  Definition p2pk_should_show_output (c : p2pk) : option bool :=
    let go :=
      match op_union_of c with
      | OU_TX t =>
          match tx_output t with
          | None => None
          | Some o =>
              if negb (output_info_is_finished o) then Some false
              else match oi_type o with
              | OT_MINERS_FEE => Some (0 <? output_info_used_tokens_count o)
              | OT_BIP32 p =>
                  if negb (ergo_path_validate p V_ADDRESS_E5) then Some true
                  else if bip32_path_is_equal p (tx_last_approved t) then Some false
                  else if bip32_path_same_account p (op_path c) &&
                          (nth 3 p 0 =? nth 3 (op_path c) 0) &&
                          (nth 4 p 0 <? u32 (nth 4 (op_path c) 0 + 20)) then Some false
                  else Some true
              | _ => Some true
              end
          end
      | _ => None
      end in
    match op_state_of c with
    | OP_OUTPUTS_STARTED | OP_TX_FINISHED => go
    | _ => Some false
    end.

  (** stx_ui.c:118-168 *)
  Definition output_info_print_address (o : output_info) (network : N) : out (text * text) :=
    let t s := cstr TITLE_LEN (str s) in
    let p2sh h :=
      match ergo_address_from_script_hash (e_blake E) network h with
      | None => Fail SW_ADDRESS_GENERATION_FAILED
      | Some a => match format_b58_id a TEXT_LEN with
                  | None => Fail SW_ADDRESS_FORMATTING_FAILED
                  | Some s => Ok (t "Script Hash"%string, s)
                  end
      end in
    if negb (output_info_is_finished o) then Fail SW_BAD_STATE
    else match oi_type o with
    | OT_BIP32 p => match bip32_path_format TEXT_LEN p with
                    | None => Fail SW_BIP32_FORMATTING_FAILED
                    | Some s => Ok (t "Change"%string, s)
                    end
    | OT_ADDRESS pk =>
        match ergo_address_from_compressed_pubkey (e_blake E) network pk with
        | None => Fail SW_ADDRESS_GENERATION_FAILED
        | Some a => match format_b58_id a TEXT_LEN with
                    | None => Fail SW_ADDRESS_FORMATTING_FAILED
                    | Some s => Ok (t "Address"%string, s)
                    end
        end
    | OT_SCRIPT_DONE h => p2sh (firstn 24 h)
    | OT_SCRIPT_HASH h => p2sh h
    | OT_MINERS_FEE => Ok (t "Fee"%string, cstr TEXT_LEN (str "Miners Fee"))
    | OT_SCRIPT _ => Fail SW_UB
    | OT_UNKNOWN => Fail SW_BAD_STATE
    end.

  Definition token_title (k : N) (suffix : string) : text :=
    cstr TITLE_LEN (str "Token [" ++ dec (k + 1) ++ str suffix).

  (** tokens[token_idx] of the token table: a 20-cell array, zero beyond the count. *)
  Definition table_cell (t : token_table) (i : N) : option token_id :=
    if i <? TOKEN_MAX_COUNT then Some (nth (N.to_nat i) t zero_id) else None.

  (** stx_ui.c:170-218 *)
  Definition display_output_page (o : output_info) (table : token_table) (network screen : N)
    : out (text * text) :=
    if screen =? 0 then output_info_print_address o network
    else if screen =? 1 then
      match format_erg_amount (oi_value o) TEXT_LEN with
      | None => Fail SW_BUFFER_ERROR
      | Some s => Ok (cstr TITLE_LEN (str "Output Value"), s)
      end
    else
      let s := screen - 2 in
      let token_idx := output_info_used_token_index o (s / 2) in
      if token_idx =? INDEX_NOT_EXIST then Fail SW_BAD_TOKEN_INDEX
      else if s mod 2 =? 0 then
        match table_cell table token_idx with
        | None => Fail SW_UB
        | Some id => match format_hex_id (e_id_keep E) id TEXT_LEN with
                     | None => Fail SW_ADDRESS_FORMATTING_FAILED
                     | Some x => Ok (token_title (s / 2) "]", x)
                     end
        end
      else match nth_error (oi_tokens o) (N.to_nat token_idx) with
           | None => Fail SW_UB
           | Some v => match format_u64 v TEXT_LEN with
                       | Some x => Ok (token_title (s / 2) "] Value", x)
                       | None => Fail SW_UB
                       end
           end.

  (** stx_op_p2pk.c:415-428 *)
  Definition p2pk_show_tx_screen (c : p2pk) (index : N) : out (text * text) :=
    if negb (index =? 0) then Fail SW_BAD_STATE
    else match bip32_path_format TEXT_LEN (op_path c) with
         | None => Fail SW_BIP32_FORMATTING_FAILED
         | Some s => Ok (cstr TITLE_LEN (str "P2PK Path"), s)
         end.

  (** stx_ui.c:289-347 with one operation screen (stx_op_p2pk.c:437).  Negating INT64_MIN
      at stx_ui.c:337 is undefined. *)
  Definition display_tx_page (c : p2pk) (screen : N) : out (text * text) :=
    let a := op_amounts c in
    if screen <? 1 then p2pk_show_tx_screen c screen
    else
      let s := screen - 1 in
      if s =? 0 then
        match format_erg_amount (am_value a) TEXT_LEN with
        | None => Fail SW_BUFFER_ERROR
        | Some x => Ok (cstr TITLE_LEN (str "Transaction Amount"), x)
        end
      else if s =? 1 then
        match format_erg_amount (am_fee a) TEXT_LEN with
        | None => Fail SW_BUFFER_ERROR
        | Some x => Ok (cstr TITLE_LEN (str "Transaction Fee"), x)
        end
      else
        let s := s - 2 in
        let token_idx := amounts_non_zero_token_index a (s / 2) in
        if token_idx =? INDEX_NOT_EXIST then Fail SW_BAD_TOKEN_INDEX
        else if s mod 2 =? 0 then
          match table_cell (am_table a) token_idx with
          | None => Fail SW_UB
          | Some id => match format_hex_id (e_id_keep E) id TEXT_LEN with
                       | None => Fail SW_ADDRESS_FORMATTING_FAILED
                       | Some x => Ok (token_title (s / 2) "]", x)
                       end
          end
        else match tok_get (am_tokens a) token_idx with
             | None => Fail SW_UB
             | Some v =>
                 let show (prefix : string) (n : N) :=
                   match format_u64 n (TEXT_LEN - length (str prefix)) with
                   | Some x => Ok (token_title (s / 2) "] Value", str prefix ++ x)
                   | None => Fail SW_UB
                   end in
                 if (v <? 0)%Z then
                   if (v =? - Z.of_N two63)%Z then Fail SW_UB
                   else show "Minting: "%string (Z.to_N (- v))
                 else show "Burning: "%string (Z.to_N v)
             end.

  (** stx_ui.c:91-111 *)
  Definition add_operation_approve_screens (f : flow) (token : N) (known : bool) : out flow :=
    if MAX_NUMBER_OF_SCREENS <? blen f + 3 then Fail SW_SCREENS_BUFFER_OVERFLOW
    else
      let f := if known then f else add (ui_application_id_screen token) f in
      match ui_approve_reject_screens f with
      | None => Fail SW_UB
      | Some f => Ok f
      end.

  Definition display (f : flow) : out flow :=
    match ui_display_screens f with
    | None => Fail SW_SCREENS_BUFFER_OVERFLOW
    | Some f => Ok f
    end.

  (** stx_op_p2pk.c:331-360: the flow shown and the context with the token recorded. *)
  Definition p2pk_show_token_and_path (c : p2pk) (token : N) (known : bool) : out (flow * p2pk) :=
    match ui_bip32_path_screen (op_path c) (str "P2PK Signing") 60 true with
    | None => Fail SW_BIP32_FORMATTING_FAILED
    | Some s =>
        bind (add_operation_approve_screens (add s []) token known) (fun f =>
        bind (display f) (fun f => Ok (f, op_set_union c (OU_APPROVE token))))
    end.

  (** stx_ui.c:243-281 *)
  Definition add_output_screens (f : flow) (o : output_info) : out (flow * dyn) :=
    if MAX_NUMBER_OF_SCREENS <? blen f + 6 then Fail SW_SCREENS_BUFFER_OVERFLOW
    else
      let f := add (SC_INFO (str "Confirm Output")) f in
      let count := match oi_type o with
                   | OT_BIP32 _ => 1
                   | _ => u8 (2 + 2 * output_info_used_tokens_count o)
                   end in
      match ui_add_dynamic_flow_screens f count with
      | None => Fail SW_SCREENS_BUFFER_OVERFLOW
      | Some (f, d) =>
          if MAX_NUMBER_OF_SCREENS <? blen f + 2 then Fail SW_SCREENS_BUFFER_OVERFLOW
          else match ui_approve_reject_screens f with
               | None => Fail SW_UB
               | Some f => Ok (f, d)
               end
      end.

  (** stx_op_p2pk.c:362-379; last_approved_change is cleared (stx_ui.c:251). *)
  Definition p2pk_show_output_confirm_screen (c : p2pk) : out (flow * dyn * p2pk) :=
    let go :=
      match op_union_of c with
      | OU_TX t =>
          match tx_output t with
          | None => Fail SW_UB
          | Some o =>
              bind (add_output_screens [] o) (fun fd =>
              bind (display (fst fd)) (fun f =>
              Ok (f, snd fd, op_set_union c (OU_TX (mk_tx (tx_full t) (Some o) [])))))
          end
      | _ => Fail SW_UB
      end in
    match op_state_of c with
    | OP_OUTPUTS_STARTED | OP_TX_FINISHED => go
    | _ => Fail SW_BAD_STATE
    end.

  (** stx_ui.c:364-401 *)
  Definition add_transaction_screens (f : flow) (a : amounts) (op_screens : N) : out (flow * dyn) :=
    if MAX_NUMBER_OF_SCREENS <? blen f + 6 then Fail SW_SCREENS_BUFFER_OVERFLOW
    else
      let f := add (SC_INFO (str "Approve Signing")) f in
      match ui_add_dynamic_flow_screens f
              (u8 (op_screens + 2 + 2 * amounts_non_zero_tokens_count a)) with
      | None => Fail SW_SCREENS_BUFFER_OVERFLOW
      | Some (f, d) =>
          if MAX_NUMBER_OF_SCREENS <? blen f + 2 then Fail SW_SCREENS_BUFFER_OVERFLOW
          else match ui_approve_reject_screens f with
               | None => Fail SW_UB
               | Some f => Ok (f, d)
               end
      end.

  (** stx_op_p2pk.c:430-447 *)
  Definition p2pk_show_confirm_screen (c : p2pk) : out (flow * dyn * p2pk) :=
    match op_state_of c with
    | OP_TX_FINISHED =>
        bind (add_transaction_screens [] (op_amounts c) 1) (fun fd =>
        bind (display (fst fd)) (fun f =>
        Ok (f, snd fd, op_set_union (op_set_state c OP_FINALIZED) OU_CONFIRM)))
    | _ => Fail SW_BAD_STATE
    end.

  (** stx_op_p2pk.c:381-413: the signature, or the status word of the error response. *)
  Definition p2pk_send_response (c : p2pk) : out bytes :=
    match op_state_of c with
    | OP_FINALIZED =>
        match e_derive E (op_path c) with
        | None => Fail SW_INTERNAL_CRYPTO_ERROR
        | Some (secret, _) =>
            match schnorr_sign_finish E (op_hash c) secret (op_key c) with
            | None => Fail SW_SCHNORR_SIGNING_FAILED
            | Some s => Ok s
            end
        end
    | _ => Fail SW_BAD_STATE
    end.
End Op.
