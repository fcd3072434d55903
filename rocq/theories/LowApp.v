(** One event of the device with failing calls and local arrays: App once more, with the
    calls of App that can fail replaced.  What cannot fail is App's. *)
From Coq Require Import String.
From Verif Require Import Base Env Bip32 Base58 Address ErgoTree Schnorr RwBuffer TxTable TxBox TxFull
  Amounts OutputInfo Format InputFrame UiFlow P2pkOp App Fault LowTx LowOp.

(** The two calls of cx_hmac_sha256 ignore its result (ainpt_response.c:49-54,
    stx_handler.c:130-135): when it fails, the code goes on with what it left behind. *)
Definition hmac_env (E : env) (F : faults) : env :=
  mk_env (e_blake E)
         (fun k l => match f_hmac F k l with Some g => g | None => e_hmac E k l end)
         (e_derive E) (e_mulG E) (e_id_keep E).

Section LowApp.
  Variable E : env.
  Variable F : faults.

  (** * Responses *)

  (** CHECK_WRITE_PARAM (cmd_macros.h) of each write, then res_ok_data (response.h). *)
  Definition send_written (w : bres unit) : out bytes :=
    match w with
    | B_ub => Fail SW_UB
    | B_fail _ => Fail SW_BUFFER_ERROR
    | B_ok b _ => match written b with None => Fail SW_UB | Some l => Ok l end
    end.
  (** epk_response.c:20-32 *)
  Definition low_epk_response (pk chain : bytes) : out bytes :=
    send_written (write_all (array_buffer F 65)
      [be_bytes 1 (if N.land (nth 64 pk 0) 1 =? 0 then 0x02 else 0x03); firstn 32 (skipn 1 pk); chain]).
  (** da_response.c:21-29 *)
  Definition low_da_response (address : bytes) : out bytes :=
    send_written (write_all (array_buffer F 38) [address]).

  (** ainpt_response.c:33-46: what is written before the signature. *)
  Definition frame_pieces (box_id : bytes) (value : N) (tokens : list (bytes * N)) (index : N)
    : list bytes :=
    let n := blen tokens in
    let tc := N.min (u8 (n + two8 - u8 (index * FRAME_MAX_TOKENS_COUNT))) FRAME_MAX_TOKENS_COUNT in
    [box_id; be_bytes 1 (get_frames_count n); be_bytes 1 index; be_bytes 8 value; be_bytes 1 tc] ++
    flat_map (fun t => [fst t; be_bytes 8 (snd t)])
      (firstn (N.to_nat tc) (skipn (N.to_nat (u8 (index * FRAME_MAX_TOKENS_COUNT))) tokens)).
  (** ainpt_response.c:29-57: G_io_apdu_buffer has 260 bytes, 258 of which may be used. *)
  Definition low_attested_frame (key box_id : bytes) (value : N) (tokens : list (bytes * N)) (index : N)
    : out bytes :=
    match write_all (rw_buffer_init (f_stack F 260) 258 0) (frame_pieces box_id value tokens index) with
    | B_ub => Fail SW_UB
    | B_fail _ => Fail SW_BUFFER_ERROR
    | B_ok b _ =>
        if negb (rw_buffer_can_write b 32) then Fail SW_BUFFER_ERROR
        else match written b with
        | None => Fail SW_UB
        | Some d =>
            match mem_put (rb_mem b) (rb_wpos b) (e_hmac (hmac_env E F) key d) with
            | None => Fail SW_UB
            | Some m => send_written (rw_buffer_seek_write_cur
                                        (mk_rwb m (rb_off b) (rb_wpos b) (rb_cap b)) 16)
            end
        end
    end.

  (** A response built by one of these. *)
  Definition sent (r : out bytes) : output :=
    match r with Ok l => OResp l SW_OK | Fail s => resp s end.

  (** * Extended public key *)

  (** epk_handler.c:29-73 and epk_ui.c:40-87 *)
  Definition low_handler_epk (st : state) (data : bytes) (has_token : bool) : result :=
    if st_busy st then (st, [resp SW_BUSY])
    else
      let st := set_command st CMD_EPK in
      match parse_epk has_token data with
      | Fail s => handler_err st s
      | Ok (p, token) =>
          if negb (ergo_path_validate p V_ACCOUNT_GE3) then handler_err st SW_BIP32_BAD_PATH
          else match low_generate_public_key E F p with
          | None => handler_err st SW_INTERNAL_CRYPTO_ERROR
          | Some (pk, chain) =>
              if is_known_application token (st_connected st) then
                (set_command st CMD_NONE, [sent (low_epk_response pk chain)])
              else
                match ui_bip32_path_screen p (str "Path") 60 false with
                | None => handler_err (overwrite [SC_INFO (str "Ext PubKey Export")] st) SW_BIP32_FORMATTING_FAILED
                | Some s =>
                    let f := add s (add (SC_INFO (str "Ext PubKey Export")) []) in
                    let f := if token =? 0 then f else add (ui_application_id_screen token) f in
                    match ui_approve_reject_screens f with
                    | None => handler_err st SW_UB
                    | Some f =>
                        match ui_display_screens f with
                        | None => (set_ctx st (X_EPK (mk_epk token chain pk)), [])
                        | Some f => (show (set_ctx st (X_EPK (mk_epk token chain pk))) U_EPK f dyn_none,
                                     [OShow U_EPK f []])
                        end
                    end
                end
          end
      end.

  (** epk_ui.c:22-38 *)
  Definition low_ui_action_epk (st : state) (c : epk_ctx) (approved : bool) : result :=
    let st := set_busy st false in
    let '(st, o) :=
      if approved then (set_connected st (ep_token c), sent (low_epk_response (ep_key c) (ep_chain c)))
      else (st, resp SW_DENY) in
    (ui_menu_main (set_command st CMD_NONE), [o]).

  (** * Derive address *)

  (** da_handler.c:30-79 *)
  Definition low_handler_da (st : state) (data : bytes) (disp has_token : bool) : result :=
    if st_busy st then (st, [resp SW_BUSY])
    else
      let st := set_command st CMD_DA in
      match parse_da has_token data with
      | Fail s => handler_err st s
      | Ok (net, p, token) =>
          if negb (ergo_path_validate p V_ADDRESS_GE5) then handler_err st SW_BIP32_BAD_PATH
          else match low_generate_public_key E F p with
          | None => handler_err st SW_INTERNAL_CRYPTO_ERROR
          | Some (pk, _) =>
              match low_address_from_pubkey E F net pk with
              | Fail s => (st, [resp s])
              | Ok addr =>
                  if negb disp && is_known_application token (st_connected st) then
                    (set_command st CMD_NONE, [sent (low_da_response addr)])
                  else
                    match da_screens (negb disp) token p addr with
                    | Fail s => handler_err (overwrite (da_written (negb disp) p) st) s
                    | Ok f =>
                        let st := set_ctx st (X_DA (mk_da token addr (negb disp))) in
                        match ui_display_screens f with
                        | None => (st, [])
                        | Some f => (show st U_DA f dyn_none, [OShow U_DA f []])
                        end
                    end
              end
          end
      end.

  (** da_ui.c:32-50 *)
  Definition low_ui_action_da (st : state) (c : da_ctx) (approved : bool) : result :=
    let st := set_busy st false in
    let '(st, o) :=
      if approved then
        let st := set_connected st (da_token c) in
        if da_send c then (set_command st CMD_NONE, sent (low_da_response (da_address c)))
        else (set_command st CMD_NONE, resp SW_OK)
      else (set_command st CMD_NONE, resp SW_DENY) in
    (ui_menu_main st, [o]).

  (** * Attest input *)

  (** ainpt_handler.c:71-117 *)
  Definition low_attest_init (st : state) (data : bytes) (has_token : bool) (r : rnd) : result :=
    match parse_attest_init has_token data with
    | Fail s => handler_err st s
    | Ok a =>
        if f_init F then handler_err st SW_HASHER_ERROR
        else
        let '(res, b) := low_box_init F (ap_value a) (ap_tree_size a) (ap_height a) (ap_tokens_count a)
                                      (ap_regs_size a) [] ([] : list (token_id * N)) in
        if negb (res_pass res) then handler_err st (sw_of_res res)
        else match session_id_new_random 0 (r_ids r) with
        | None => (st, [ODiverge])
        | Some session =>
            let c s := X_ATTEST (mk_attest s session (ap_tx_id a) (ap_index a) (bs_box b)
                                           (bs_hash b) [] (ap_token a)) in
            if is_known_application (st_connected st) (ap_token a) then
              (set_ctx st (c AT_APPROVED), [OResp [session] SW_OK])
            else match attest_screens (ap_token a) with
            | None => handler_err st SW_UB
            | Some f =>
                match ui_display_screens f with
                | None => (set_ctx st (c AT_INITIALIZED), [])
                | Some f => (show (set_ctx st (c AT_INITIALIZED)) U_ATTEST f dyn_none,
                             [OShow U_ATTEST f []])
                end
            end
        end
    end.

  (** ainpt_handler.c:41-50 *)
  Definition low_check_box_finished (st : state) (c : attest_ctx) : result :=
    match bx_state (at_box c) with
    | BX_FINISHED =>
        match low_box_id_hash F (e_blake E) (attest_bs c) (at_id c) (at_index c) with
        | (R_OK, (s, id)) =>
            (set_ctx st (X_ATTEST (mk_attest AT_FINISHED (at_session c) id (at_index c) (bs_box s)
                                             (bs_hash s) (at_tokens c) (at_token c))),
             [OResp [get_frames_count (blen (at_tokens c))] SW_OK])
        | (r, _) => handler_err st (sw_of_res r)
        end
    | _ => (set_ctx st (X_ATTEST c), [resp SW_OK])
    end.
  (** ainpt_handler.c:119-135 with CHECK_CALL_BOX_FINISHED (22-33) *)
  Definition low_attest_box_call (st : state) (c : attest_ctx)
             (call : bs (list (token_id * N)) -> res * bs (list (token_id * N))) : result :=
    match at_state c with
    | AT_APPROVED =>
        let '(r, s) := call (attest_bs c) in
        match r with
        | R_OK => low_check_box_finished st (attest_put c s)
        | R_MORE_DATA => (set_ctx st (X_ATTEST (attest_put c s)), [resp SW_OK])
        | _ => handler_err st (sw_of_res r)
        end
    | _ => handler_err st SW_BAD_STATE
    end.
  (** ainpt_handler.c:137-145, ainpt_response.c:21-58 *)
  Definition low_attest_get_frame (st : state) (c : attest_ctx) (data : bytes) : result :=
    match at_state c with
    | AT_FINISHED =>
        match bind (rd (read_u8 data)) (fun '(i, l) => finished l i) with
        | Fail s => handler_err st s
        | Ok index =>
            if get_frames_count (blen (at_tokens c)) <=? index then handler_err st SW_BAD_FRAME_INDEX
            else match low_attested_frame (st_key st) (at_id c) (bx_value (at_box c)) (at_tokens c) index with
                 | Fail s => handler_err st s
                 | Ok l => (st, [OResp l SW_OK])
                 end
        end
    | _ => handler_err st SW_BAD_STATE
    end.
  (** ainpt_handler.c:147-181 *)
  Definition low_handler_attest (st : state) (data : bytes) (sub session_or_token : N) (r : rnd) : result :=
    let in_session (k : attest_ctx -> result) :=
      match st_cmd st with
      | CMD_ATTEST =>
          match st_ctx st with
          | X_ATTEST c => if session_or_token =? at_session c then k c
                          else handler_err st SW_BAD_SESSION_ID
          | _ => handler_err st SW_UB
          end
      | _ => handler_err st SW_BAD_STATE
      end in
    if st_busy st then (st, [resp SW_BUSY])
    else match sub with
    | 0x01 =>
        if negb (session_or_token =? 1) && negb (session_or_token =? 2)
        then handler_err st SW_WRONG_P1P2
        else low_attest_init (set_command st CMD_ATTEST) data (session_or_token =? 2) r
    | 0x02 => in_session (fun c => low_attest_box_call st c
                                     (fun s => low_box_add_tree F attest_box_cb s data))
    | 0x03 => in_session (fun c => low_attest_box_call st c
                                     (fun s => low_box_add_tokens F attest_box_cb s data None))
    | 0x04 => in_session (fun c => low_attest_box_call st c
                                     (fun s => low_box_add_registers F attest_box_cb s data))
    | 0x05 => in_session (fun c => low_attest_get_frame st c data)
    | _ => handler_err st SW_WRONG_SUBCOMMAND
    end.

  (** * Sign transaction *)

  (** stx_handler.c:61-89 *)
  Definition low_sign_init (st : state) (data : bytes) (has_token : bool) (r : rnd) : result :=
    match parse_sign_init has_token data with
    | Fail s => handler_err st s
    | Ok (net, p, token) =>
        match low_p2pk_init E F (r_nonces r) p net with
        | Fail s => handler_err st s
        | Ok op =>
            match session_id_new_random 0 (r_ids r) with
            | None => (st, [ODiverge])
            | Some session =>
                match p2pk_show_token_and_path op token
                        (is_known_application (st_connected st) token) with
                | Fail s => handler_err st s
                | Ok (f, op) =>
                    (show (set_ctx st (X_SIGN (mk_sign SG_INITIALIZED session op))) U_STX_APPROVE f dyn_none,
                     [OShow U_STX_APPROVE f []])
                end
            end
        end
    end.

  (** stx_handler.c:91-268 *)
  Definition low_sign_exec (key : bytes) (op : p2pk) (sub : N) (data : bytes) : option (out p2pk * after) :=
    match sub with
    | 0x10 => Some (bind (parse_tx_start data) (fun '(i, d, t, o) => low_p2pk_start_tx F op i d o t), A_OK)
    | 0x11 => Some (p2pk_add_tokens op data, A_OK)
    | 0x12 =>
        Some (bind (parse_input_frame (hmac_env E F) key data) (fun f =>
              bind (if if_index f =? 0
                    then p2pk_add_input op (if_box_id f) (if_value f) (if_frames_count f) (if_ext_len f)
                    else Ok op) (fun op =>
              low_p2pk_add_input_tokens F op (if_box_id f) (if_index f) (if_tokens f))), A_OK)
    | 0x13 => Some (low_p2pk_add_input_context_extension F op data, A_OK)
    | 0x14 => Some (low_p2pk_add_data_inputs F op data, A_OK)
    | 0x15 => Some (bind (parse_output_init data)
                         (fun '(v, t, h, n, r) => low_p2pk_add_output F op v t h n r), A_OK)
    | 0x16 => Some (low_p2pk_add_output_tree_chunk E F op data, A_OUTPUT)
    | 0x17 => Some (bind (finished data tt) (fun _ => low_p2pk_add_output_tree_fee E F op), A_OUTPUT)
    | 0x18 =>
        Some (bind (stx_read_bip32_path data) (fun '(p, _) =>
              if negb (ergo_path_validate p V_ADDRESS_GE5) then Fail SW_BIP32_BAD_PATH
              else match low_generate_public_key E F p with
                   | None => Fail SW_INTERNAL_CRYPTO_ERROR
                   | Some (pk, _) => low_p2pk_add_output_tree_change E F op p pk
                   end), A_OUTPUT)
    | 0x19 => Some (low_p2pk_add_output_tokens E F op data, A_OUTPUT)
    | 0x1A => Some (low_p2pk_add_output_registers E F op data, A_OUTPUT)
    | 0x20 => Some (Ok op, A_CONFIRM)
    | _ => None
    end.
  (** stx_handler.c:91-275 *)
  Definition low_sign_command (st : state) (g : sign_ctx) (sub : N) (data : bytes) : result :=
    match sg_state g with
    | SG_APPROVED =>
        match low_sign_exec (st_key st) (sg_op g) sub data with
        | None => handler_err st SW_WRONG_SUBCOMMAND
        | Some (Fail s, _) => handler_err st s
        | Some (Ok op, A_OK) => (set_ctx st (X_SIGN (mk_sign SG_APPROVED (sg_session g) op)), [resp SW_OK])
        | Some (Ok op, A_OUTPUT) => show_output_screen_if_needed E st g op
        | Some (Ok op, A_CONFIRM) =>
            match p2pk_show_confirm_screen op with
            | Fail s => handler_err st s
            | Ok (f, d, op) => show_dynamic E st U_STX_TX f d (X_SIGN (mk_sign SG_APPROVED (sg_session g) op))
            end
        end
    | _ => handler_err st SW_BAD_STATE
    end.
  (** stx_handler.c:277-343 *)
  Definition low_handler_sign (st : state) (data : bytes) (sub session_or_token : N) (r : rnd) : result :=
    if st_busy st then (st, [resp SW_BUSY])
    else if sub =? 0x01 then
      if negb (session_or_token =? 1) && negb (session_or_token =? 2)
      then (st, [resp SW_WRONG_P1P2])
      else low_sign_init (set_command st CMD_SIGN) data (session_or_token =? 2) r
    else if is_sign_subcommand sub then
      match st_cmd st with
      | CMD_SIGN =>
          match st_ctx st with
          | X_SIGN g => if session_or_token =? sg_session g then low_sign_command st g sub data
                        else handler_err st SW_BAD_SESSION_ID
          | _ => handler_err st SW_UB
          end
      | _ => handler_err st SW_BAD_STATE
      end
    else handler_err st SW_WRONG_SUBCOMMAND.

  (** stx_ui.c:350-362 with stx_op_p2pk.c:381-413 *)
  Definition low_ui_action_stx_tx (st : state) (g : sign_ctx) (approved : bool) : result :=
    let st := set_busy st false in
    let o := if approved then sent (low_p2pk_send_response E F (sg_op g)) else resp SW_DENY in
    (ui_menu_main (set_command st CMD_NONE), [o]).

  (** * Dispatcher and buttons *)

  (** apdu_dispatcher.c:16-58 *)
  Definition low_apdu_dispatcher (st : state) (cla ins p1 p2 : N) (data : bytes) (r : rnd) : result :=
    if negb (cla =? 0xE0) then (st, [resp SW_CLA_NOT_SUPPORTED])
    else match ins with
    | 0x01 => if negb (p1 =? 0) || negb (p2 =? 0) then (st, [resp SW_WRONG_P1P2])
              else (st, [OResp APP_VERSION SW_OK])
    | 0x02 => if negb (p1 =? 0) || negb (p2 =? 0) then (st, [resp SW_WRONG_P1P2])
              else (st, [OResp APP_NAME SW_OK])
    | 0x10 => if (p1 =? 0) || (2 <? p1) || (0 <? p2) then (st, [resp SW_WRONG_P1P2])
              else low_handler_epk st data (p1 =? 2)
    | 0x11 => if (p1 =? 0) || (2 <? p1) || (p2 =? 0) || (2 <? p2) then (st, [resp SW_WRONG_P1P2])
              else low_handler_da st data (p1 =? 2) (p2 =? 2)
    | 0x20 => if (p1 =? 0) || (p2 =? 0) then (st, [resp SW_WRONG_P1P2])
              else low_handler_attest st data p1 p2 r
    | 0x21 => if (p1 =? 0) || (p2 =? 0) then (st, [resp SW_WRONG_P1P2])
              else low_handler_sign st data p1 p2 r
    | _ => (st, [resp SW_INS_NOT_SUPPORTED])
    end.

  (** ui_approve_reject.c:8-22 *)
  Definition low_ui_action (st : state) (approved : bool) : result :=
    match st_ui st, st_ctx st with
    | U_EPK, X_EPK c => low_ui_action_epk st c approved
    | U_DA, X_DA c => low_ui_action_da st c approved
    | U_STX_TX, X_SIGN g => low_ui_action_stx_tx st g approved
    | _, _ => ui_action E st approved
    end.

  (** Page [i] of the flow on the screen (stx_ui.c:170-218, 289-347). *)
  Definition low_page_of (k : ui_kind) (c : ctx) (i : N) : page :=
    match k, c with
    | U_STX_OUTPUT, X_SIGN g =>
        match op_union_of (sg_op g) with
        | OU_TX t => match tx_output t with
                     | Some o => low_output_page E F o (am_table (op_amounts (sg_op g)))
                                                 (op_network (sg_op g)) i
                     | None => Fail SW_UB
                     end
        | _ => Fail SW_UB
        end
    | _, _ => page_of E k c i
    end.
  (** DISPLAY_DYNAMIC_STATE (ui_dynamic_flow.c:32-45) *)
  Definition low_display_dynamic (st : state) (x : dyn * option N) : result :=
    let st := set_dyn st (fst x) in
    match snd x with
    | None => (st, [])
    | Some i => match low_page_of (st_ui st) (st_ctx st) i with
                | Ok (title, body) => (st, [OPage i title body])
                | Fail SW_UB => (st, [OUb])
                | Fail s => (ui_menu_main (set_command st CMD_NONE), [resp s])
                end
    end.

  (** One event.  The pages listed with a flow that appears are those of App; whether a
      page can be drawn is decided when it is drawn. *)
  Definition fstep (st : state) (e : event) : result :=
    match e with
    | Apdu cla ins p1 p2 data r => low_apdu_dispatcher st cla ins p1 p2 data r
    | UiApprove => low_ui_action st true
    | UiReject => low_ui_action st false
    | UiUpper => if has_pages (st_ui st) then low_display_dynamic st (ui_dynamic_step_left (st_dyn st))
                 else (st, [])
    | UiLower => if has_pages (st_ui st) then low_display_dynamic st (ui_dynamic_step_right (st_dyn st))
                 else (st, [])
    | _ => step E st e
    end.
End LowApp.
