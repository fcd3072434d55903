(** The operation of stx_op_p2pk.c, the handlers of src/commands, the dispatcher and one turn
    of app_main once more, taking commands from the I/O buffer (see ReadBuf).  Functions
    that do not see the command are reused. *)
From Coq Require Import String.
From Verif Require Import Base Env Bip32 Address Base58 InputFrame RwBuffer TxTable TxBox TxInput TxFull
  Amounts OutputInfo Format UiFlow P2pkOp App ReadBuf ReadTx.

Section RawHandlers.
  Variable E : env.

  (** * The signing operation *)

  (** stx_op_p2pk.c:120-125 *)
  Definition raw_p2pk_add_tokens (c : p2pk) (b : rwb) : out p2pk :=
    match op_state_of c with
    | OP_TX_STARTED => tx_call c (fun s => raw_full_add_tokens op_tget op_tset s b)
    | _ => Fail SW_BAD_STATE
    end.

  (** stx_op_p2pk.c:153-164 *)
  Definition raw_p2pk_add_input_tokens (c : p2pk) (box_id : bytes) (frame_index : N) (tokens : rwb)
    : out p2pk :=
    match op_state_of c with
    | OP_INPUTS_STARTED =>
        tx_call c (fun s => raw_full_add_input_tokens op_tget p2pk_input_token_cb s box_id
                                                      frame_index tokens)
    | _ => Fail SW_BAD_STATE
    end.

  (** stx_op_p2pk.c:166-173 *)
  Definition raw_p2pk_add_input_context_extension (c : p2pk) (b : rwb) : out p2pk :=
    match op_state_of c with
    | OP_INPUTS_STARTED =>
        tx_call c (fun s => raw_full_add_input_context_extension op_tget p2pk_input_token_cb s b)
    | _ => Fail SW_BAD_STATE
    end.

  (** stx_op_p2pk.c:175-181 *)
  Definition raw_p2pk_add_data_inputs (c : p2pk) (b : rwb) : out p2pk :=
    match op_state_of c with
    | OP_INPUTS_STARTED => tx_call c (fun s => raw_full_add_data_inputs op_tget s b)
    | _ => Fail SW_BAD_STATE
    end.

  (** stx_op_p2pk.c:215-244: pointer and length of the chunk are taken before the serializer
      moves the offset; the length is a uint16_t.  stx_output.c:58-94 may read less than
      the whole chunk. *)
  Definition raw_p2pk_add_output_tree_chunk (c : p2pk) (b : rwb) : out p2pk :=
    match op_state_of c with
    | OP_OUTPUTS_STARTED =>
        match op_union_of c with
        | OU_TX t =>
            let '(r, s) := raw_full_add_box_ergo_tree (op_box_cb E) (op_fs c t) b in
            let go is_finished :=
              match peek b 0 (u16 (rw_buffer_data_len b)) with
              | None => Fail SW_UB
              | Some chunk =>
                  bind (output_call (op_put c t s)
                          (fun o => output_info_add_tree_chunk (e_blake E) o chunk is_finished))
                       check_tx_finished
              end in
            match r with
            | R_OK => go true
            | R_MORE_DATA => go false
            | _ => Fail (sw_of_res r)
            end
        | _ => Fail SW_UB
        end
    | _ => Fail SW_BAD_STATE
    end.

  (** stx_op_p2pk.c:271-278 *)
  Definition raw_p2pk_add_output_tokens (c : p2pk) (b : rwb) : out p2pk :=
    match op_state_of c with
    | OP_OUTPUTS_STARTED =>
        bind (tx_call c (fun s => raw_full_add_box_tokens op_tget (op_box_cb E) s b)) check_tx_finished
    | _ => Fail SW_BAD_STATE
    end.

  (** stx_op_p2pk.c:280-287 *)
  Definition raw_p2pk_add_output_registers (c : p2pk) (b : rwb) : out p2pk :=
    match op_state_of c with
    | OP_OUTPUTS_STARTED =>
        bind (tx_call c (fun s => raw_full_add_box_registers (op_box_cb E) s b)) check_tx_finished
    | _ => Fail SW_BAD_STATE
    end.

  (** * Handlers *)

  (** epk_handler.c:29-73 and epk_ui.c:40-87 *)
  Definition raw_handler_epk (st : state) (b : rwb) (has_token : bool) : result :=
    if st_busy st then (st, [resp SW_BUSY])
    else
      let st := set_command st CMD_EPK in
      match raw_parse_epk has_token b with
      | Fail s => handler_err st s
      | Ok (p, token) =>
          if negb (ergo_path_validate p V_ACCOUNT_GE3) then handler_err st SW_BIP32_BAD_PATH
          else match generate_public_key E p with
          | None => handler_err st SW_INTERNAL_CRYPTO_ERROR
          | Some (pk, chain) =>
              if is_known_application token (st_connected st) then
                (set_command st CMD_NONE, [OResp (epk_response pk chain) SW_OK])
              else
                match ui_bip32_path_screen p (str "Path") 60 false with
                | None => handler_err (overwrite [SC_INFO (str "Ext PubKey Export")] st) SW_BIP32_FORMATTING_FAILED
                | Some s =>
                    let f := add s (add (SC_INFO (str "Ext PubKey Export")) []) in
                    let f := if token =? 0 then f else add (ui_application_id_screen token) f in
                    match ui_approve_reject_screens f with
                    | None => handler_err st SW_UB
                    | Some f =>
                        match ui_display_screens f with
                        | None => (set_ctx st (X_EPK (mk_epk token chain pk)), [])
                        | Some f => (show (set_ctx st (X_EPK (mk_epk token chain pk))) U_EPK f dyn_none,
                                     [OShow U_EPK f []])
                        end
                    end
                end
          end
      end.

  (** da_handler.c:30-79; an address that cannot be generated is reported without
      resetting the command (line 66). *)
  Definition raw_handler_da (st : state) (b : rwb) (disp has_token : bool) : result :=
    if st_busy st then (st, [resp SW_BUSY])
    else
      let st := set_command st CMD_DA in
      match raw_parse_da has_token b with
      | Fail s => handler_err st s
      | Ok (net, p, token) =>
          if negb (ergo_path_validate p V_ADDRESS_GE5) then handler_err st SW_BIP32_BAD_PATH
          else match generate_public_key E p with
          | None => handler_err st SW_INTERNAL_CRYPTO_ERROR
          | Some (pk, _) =>
              match ergo_address_from_pubkey (e_blake E) net pk with
              | None => (st, [resp SW_ADDRESS_GENERATION_FAILED])
              | Some addr =>
                  if negb disp && is_known_application token (st_connected st) then
                    (set_command st CMD_NONE, [OResp addr SW_OK])
                  else
                    match da_screens (negb disp) token p addr with
                    | Fail s => handler_err (overwrite (da_written (negb disp) p) st) s
                    | Ok f =>
                        let st := set_ctx st (X_DA (mk_da token addr (negb disp))) in
                        match ui_display_screens f with
                        | None => (st, [])
                        | Some f => (show st U_DA f dyn_none, [OShow U_DA f []])
                        end
                    end
              end
          end
      end.

  (** ainpt_handler.c:71-117 *)
  Definition raw_attest_init (st : state) (b : rwb) (has_token : bool) (r : rnd) : result :=
    match raw_parse_attest_init has_token b with
    | Fail s => handler_err st s
    | Ok a =>
        let '(res, x) := box_init (ap_value a) (ap_tree_size a) (ap_height a) (ap_tokens_count a)
                                  (ap_regs_size a) [] ([] : list (token_id * N)) in
        if negb (res_pass res) then handler_err st (sw_of_res res)
        else match session_id_new_random 0 (r_ids r) with
        | None => (st, [ODiverge])
        | Some session =>
            let c s := X_ATTEST (mk_attest s session (ap_tx_id a) (ap_index a) (bs_box x)
                                           (bs_hash x) [] (ap_token a)) in
            if is_known_application (st_connected st) (ap_token a) then
              (set_ctx st (c AT_APPROVED), [OResp [session] SW_OK])
            else match attest_screens (ap_token a) with
            | None => handler_err st SW_UB
            | Some f =>
                match ui_display_screens f with
                | None => (set_ctx st (c AT_INITIALIZED), [])
                | Some f => (show (set_ctx st (c AT_INITIALIZED)) U_ATTEST f dyn_none,
                             [OShow U_ATTEST f []])
                end
            end
        end
    end.

  (** ainpt_handler.c:137-145, ainpt_response.c:21-58 *)
  Definition raw_attest_get_frame (st : state) (c : attest_ctx) (b : rwb) : result :=
    match at_state c with
    | AT_FINISHED =>
        match raw_parse_frame_index b with
        | Fail s => handler_err st s
        | Ok index =>
            if get_frames_count (blen (at_tokens c)) <=? index then handler_err st SW_BAD_FRAME_INDEX
            else (st, [OResp (attested_frame (e_hmac E) (st_key st) (at_id c)
                                             (bx_value (at_box c)) (at_tokens c) index) SW_OK])
        end
    | _ => handler_err st SW_BAD_STATE
    end.

  (** ainpt_handler.c:147-181 *)
  Definition raw_handler_attest (st : state) (b : rwb) (sub session_or_token : N) (r : rnd) : result :=
    let in_session (k : attest_ctx -> result) :=
      match st_cmd st with
      | CMD_ATTEST =>
          match st_ctx st with
          | X_ATTEST c => if session_or_token =? at_session c then k c
                          else handler_err st SW_BAD_SESSION_ID
          | _ => handler_err st SW_UB
          end
      | _ => handler_err st SW_BAD_STATE
      end in
    if st_busy st then (st, [resp SW_BUSY])
    else match sub with
    | 0x01 =>
        if negb (session_or_token =? 1) && negb (session_or_token =? 2)
        then handler_err st SW_WRONG_P1P2
        else raw_attest_init (set_command st CMD_ATTEST) b (session_or_token =? 2) r
    | 0x02 => in_session (fun c => attest_box_call E st c (fun s => raw_box_add_tree attest_box_cb s b))
    | 0x03 => in_session (fun c => attest_box_call E st c (fun s => raw_box_add_tokens attest_box_cb s b None))
    | 0x04 => in_session (fun c => attest_box_call E st c (fun s => raw_box_add_registers attest_box_cb s b))
    | 0x05 => in_session (fun c => raw_attest_get_frame st c b)
    | _ => handler_err st SW_WRONG_SUBCOMMAND
    end.

  (** stx_handler.c:61-89 *)
  Definition raw_sign_init (st : state) (b : rwb) (has_token : bool) (r : rnd) : result :=
    match raw_parse_sign_init has_token b with
    | Fail s => handler_err st s
    | Ok (net, p, token) =>
        match p2pk_init E (r_nonces r) p net with
        | Fail s => handler_err st s
        | Ok op =>
            match session_id_new_random 0 (r_ids r) with
            | None => (st, [ODiverge])
            | Some session =>
                match p2pk_show_token_and_path op token
                        (is_known_application (st_connected st) token) with
                | Fail s => handler_err st s
                | Ok (f, op) =>
                    (show (set_ctx st (X_SIGN (mk_sign SG_INITIALIZED session op))) U_STX_APPROVE f dyn_none,
                     [OShow U_STX_APPROVE f []])
                end
            end
        end
    end.

  (** stx_handler.c:91-268 for every subcommand but SIGN_PK and CONFIRM: the operation
      call and what follows it.  [None]: not such a subcommand. *)
  Definition raw_sign_exec (key : bytes) (op : p2pk) (sub : N) (b : rwb) : option (out p2pk * after) :=
    match sub with
    | 0x10 => Some (bind (raw_parse_tx_start b) (fun '(i, d, t, o) => p2pk_start_tx op i d o t), A_OK)
    | 0x11 => Some (raw_p2pk_add_tokens op b, A_OK)
    | 0x12 =>
        Some (bind (raw_parse_input_frame E key b) (fun f =>
              bind (if rf_index f =? 0
                    then p2pk_add_input op (rf_box_id f) (rf_value f) (rf_frames_count f) (rf_ext_len f)
                    else Ok op) (fun op =>
              raw_p2pk_add_input_tokens op (rf_box_id f) (rf_index f) (rf_tokens f))), A_OK)
    | 0x13 => Some (raw_p2pk_add_input_context_extension op b, A_OK)
    | 0x14 => Some (raw_p2pk_add_data_inputs op b, A_OK)
    | 0x15 => Some (bind (raw_parse_output_init b) (fun '(v, t, h, n, r) => p2pk_add_output op v t h n r),
                    A_OK)
    | 0x16 => Some (raw_p2pk_add_output_tree_chunk op b, A_OUTPUT)
    | 0x17 => Some (bind (at_end b tt) (fun _ => p2pk_add_output_tree_fee E op), A_OUTPUT)
    | 0x18 =>
        Some (raw_read_path b (fun p _ =>
              if negb (ergo_path_validate p V_ADDRESS_GE5) then Fail SW_BIP32_BAD_PATH
              else match generate_public_key E p with
                   | None => Fail SW_INTERNAL_CRYPTO_ERROR
                   | Some (pk, _) => p2pk_add_output_tree_change E op p pk
                   end), A_OUTPUT)
    | 0x19 => Some (raw_p2pk_add_output_tokens op b, A_OUTPUT)
    | 0x1A => Some (raw_p2pk_add_output_registers op b, A_OUTPUT)
    | 0x20 => Some (Ok op, A_CONFIRM)
    | _ => None
    end.

  (** stx_handler.c:91-275: state check, operation, continuation. *)
  Definition raw_sign_command (st : state) (g : sign_ctx) (sub : N) (b : rwb) : result :=
    match sg_state g with
    | SG_APPROVED =>
        match raw_sign_exec (st_key st) (sg_op g) sub b with
        | None => handler_err st SW_WRONG_SUBCOMMAND
        | Some (Fail s, _) => handler_err st s
        | Some (Ok op, A_OK) => (set_ctx st (X_SIGN (mk_sign SG_APPROVED (sg_session g) op)), [resp SW_OK])
        | Some (Ok op, A_OUTPUT) => show_output_screen_if_needed E st g op
        | Some (Ok op, A_CONFIRM) =>
            match p2pk_show_confirm_screen op with
            | Fail s => handler_err st s
            | Ok (f, d, op) => show_dynamic E st U_STX_TX f d (X_SIGN (mk_sign SG_APPROVED (sg_session g) op))
            end
        end
    | _ => handler_err st SW_BAD_STATE
    end.

  (** stx_handler.c:277-343 *)
  Definition raw_handler_sign (st : state) (b : rwb) (sub session_or_token : N) (r : rnd) : result :=
    if st_busy st then (st, [resp SW_BUSY])
    else if sub =? 0x01 then
      if negb (session_or_token =? 1) && negb (session_or_token =? 2)
      then (st, [resp SW_WRONG_P1P2])
      else raw_sign_init (set_command st CMD_SIGN) b (session_or_token =? 2) r
    else if is_sign_subcommand sub then
      match st_cmd st with
      | CMD_SIGN =>
          match st_ctx st with
          | X_SIGN g => if session_or_token =? sg_session g then raw_sign_command st g sub b
                        else handler_err st SW_BAD_SESSION_ID
          | _ => handler_err st SW_UB
          end
      | _ => handler_err st SW_BAD_STATE
      end
    else handler_err st SW_WRONG_SUBCOMMAND.

  (** apdu_dispatcher.c:16-58 *)
  Definition raw_apdu_dispatcher (st : state) (cla ins p1 p2 : N) (b : rwb) (r : rnd) : result :=
    if negb (cla =? 0xE0) then (st, [resp SW_CLA_NOT_SUPPORTED])
    else match ins with
    | 0x01 => if negb (p1 =? 0) || negb (p2 =? 0) then (st, [resp SW_WRONG_P1P2])
              else (st, [OResp APP_VERSION SW_OK])
    | 0x02 => if negb (p1 =? 0) || negb (p2 =? 0) then (st, [resp SW_WRONG_P1P2])
              else (st, [OResp APP_NAME SW_OK])
    | 0x10 => if (p1 =? 0) || (2 <? p1) || (0 <? p2) then (st, [resp SW_WRONG_P1P2])
              else raw_handler_epk st b (p1 =? 2)
    | 0x11 => if (p1 =? 0) || (2 <? p1) || (p2 =? 0) || (2 <? p2) then (st, [resp SW_WRONG_P1P2])
              else raw_handler_da st b (p1 =? 2) (p2 =? 2)
    | 0x20 => if (p1 =? 0) || (p2 =? 0) then (st, [resp SW_WRONG_P1P2])
              else raw_handler_attest st b p1 p2 r
    | 0x21 => if (p1 =? 0) || (p2 =? 0) then (st, [resp SW_WRONG_P1P2])
              else raw_handler_sign st b p1 p2 r
    | _ => (st, [resp SW_INS_NOT_SUPPORTED])
    end.

  (** apdu_parser of the SDK and app_main.c:58-78: [io] is G_io_apdu_buffer, [len] the number of
      bytes received.  An empty command has a NULL data pointer. *)
  Definition raw_apdu (st : state) (io : bytes) (len : N) (r : rnd) : result :=
    if len <? 5 then (st, [resp SW_WRONG_APDU_DATA_LENGTH])
    else match mem_get io 0 5 with
    | Some [cla; ins; p1; p2; lc] =>
        if negb (len - 5 =? lc) then (st, [resp SW_WRONG_APDU_DATA_LENGTH])
        else raw_apdu_dispatcher st cla ins p1 p2
               (buffer_init (if lc =? 0 then [] else skipn 5 io) lc) r
    | _ => (st, [OUb])
    end.

  (** What happens to the device: a command is received, or the user acts. *)
  Inductive raw_event := RawApdu (io : bytes) (len : N) (r : rnd) | RawUi (e : event).
  Definition raw_step (st : state) (e : raw_event) : result :=
    match e with
    | RawApdu io len r => raw_apdu st io len r
    | RawUi e => step E st e
    end.
End RawHandlers.
