(** The application as a state machine: src/context.c, apdu_dispatcher.c, app_main.c and
    the command handlers, responses and UI actions under src/commands.
    An event is an APDU from the host or an action of the user on the device; the outputs
    of a step are the responses sent and the screens shown. *)
From Coq Require Import String.
From Verif Require Import Base Env Bip32 Base58 Address ErgoTree Schnorr TxTable TxBox TxFull
  Amounts OutputInfo Format InputFrame UiFlow P2pkOp.

(** * State *)

(** apdu_dispatcher.h: command_e (only the values stored in current_command). *)
Inductive cmd := CMD_NONE | CMD_EPK | CMD_DA | CMD_ATTEST | CMD_SIGN.

(** epk_context.h:7-13 without the text buffers, which are in the flow. *)
Record epk_ctx := mk_epk { ep_token : N; ep_chain : bytes; ep_key : bytes }.
(** da_context.h:8-15 without the text buffers. *)
Record da_ctx := mk_da { da_token : N; da_address : bytes; da_send : bool }.

(** ainpt_context.h:16-21 *)
Inductive attest_state := AT_INITIALIZED | AT_FINISHED | AT_APPROVED.
(** ainpt_context.h:23-35.  [at_id] is the transaction id, then the box id.  The token
    amounts and [at_token] share memory in C; the token is only used while the approval
    screen is shown, before the first amount is written. *)
Record attest_ctx := mk_attest {
  at_state : attest_state;
  at_session : N;
  at_id : bytes;
  at_index : N;
  at_box : box;
  at_hash : bytes;
  at_tokens : list (token_id * N);
  at_token : N }.

(** stx_types.h:11-15 *)
Inductive sign_state := SG_INITIALIZED | SG_APPROVED.
(** stx_context.h:9-16 *)
Record sign_ctx := mk_sign { sg_state : sign_state; sg_session : N; sg_op : p2pk }.

(** context.h:17-22: union of the command contexts; [X_NONE] is all zero. *)
Inductive ctx :=
| X_NONE
| X_EPK (c : epk_ctx) | X_DA (c : da_ctx) | X_ATTEST (c : attest_ctx) | X_SIGN (c : sign_ctx).

(** Which flow is on the screen, i.e. which callbacks the screens are bound to
    (ui_approve_reject.c:4-5, ui_bip32_path.c:5-6, ui_dynamic_flow.c:20). *)
Inductive ui_kind :=
| U_MENU | U_ABOUT | U_EPK | U_DA | U_ATTEST | U_STX_APPROVE | U_STX_OUTPUT | U_STX_TX.

(** context.h:12-23 and the UI globals. *)
Record state := mk_state {
  st_connected : N;
  st_key : bytes;
  st_cmd : cmd;
  st_busy : bool;
  st_ctx : ctx;
  st_ui : ui_kind;
  st_flow : flow;
  st_dyn : dyn }.

(** * Events and outputs *)

(** Randomness consumed by one APDU: nonce candidates for the signature (schnorr.c:61)
    and session id candidates (session_id.h:11). *)
Record rnd := mk_rnd { r_nonces : list bytes; r_ids : list N }.

Inductive event :=
| Apdu (cla ins p1 p2 : N) (data : bytes) (r : rnd)
| BadApdu              (* apdu_parser failed, app_main.c:59-63 *)
| UiApprove | UiReject (* the Approve / Reject screens *)
| UiPathBoth           (* both buttons on the path screen, ui_bip32_path.c:8-15 *)
| UiUpper | UiLower    (* a delimiter of the dynamic pages was reached *)
| UiAbout | UiBack.    (* menu entries *)

Definition page := out (text * text).

Inductive output :=
| OResp (data : bytes) (s : sw)            (* response APDU *)
| OShow (k : ui_kind) (f : flow) (pages : list page)  (* flow displayed, with its pages *)
| OPage (i : N) (title body : text)        (* a dynamic page was drawn *)
| ODiverge                                 (* session_id.h:10-12 never left its loop *)
| OUb.                                     (* undefined behaviour *)

(** * context.c *)

Definition set_ctx (st : state) (c : ctx) : state :=
  mk_state (st_connected st) (st_key st) (st_cmd st) (st_busy st) c (st_ui st) (st_flow st) (st_dyn st).
Definition set_connected (st : state) (id : N) : state :=
  mk_state id (st_key st) (st_cmd st) (st_busy st) (st_ctx st) (st_ui st) (st_flow st) (st_dyn st).
Definition set_busy (st : state) (b : bool) : state :=
  mk_state (st_connected st) (st_key st) (st_cmd st) b (st_ctx st) (st_ui st) (st_flow st) (st_dyn st).
Definition set_dyn (st : state) (d : dyn) : state :=
  mk_state (st_connected st) (st_key st) (st_cmd st) (st_busy st) (st_ctx st) (st_ui st) (st_flow st) d.

(** Cells written into the table of screens without displaying it (ui_main.h:18-22); the
    flow on the display reads the same table. *)
Definition overwrite (left : flow) (st : state) : state :=
  mk_state (st_connected st) (st_key st) (st_cmd st) (st_busy st) (st_ctx st) (st_ui st)
    (left ++ skipn (length left) (st_flow st)) (st_dyn st).

(** context.c:22-26 *)
Definition set_command (st : state) (c : cmd) : state :=
  mk_state (st_connected st) (st_key st) c false X_NONE (st_ui st) (st_flow st) (st_dyn st).

(** ui_menu.c:29-41, 47-55.  The static flows always fit. *)
Definition menu_cells : flow := match menu_flow with Some f => f | None => [] end.
Definition about_cells : flow := match about_flow with Some f => f | None => [] end.
Definition ui_menu_main (st : state) : state :=
  mk_state (st_connected st) (st_key st) (st_cmd st) false (st_ctx st) U_MENU menu_cells dyn_none.
Definition ui_menu_about (st : state) : state :=
  mk_state (st_connected st) (st_key st) (st_cmd st) false (st_ctx st) U_ABOUT about_cells dyn_none.

(** context.c:11-20 and app_main.c:46-49; [key] is the random session key. *)
Definition init (key : bytes) : state :=
  ui_menu_main (mk_state 0 key CMD_NONE false X_NONE U_MENU [] dyn_none).

(** A flow was displayed (ui_main.h:24-35 sets busy). *)
Definition show (st : state) (k : ui_kind) (f : flow) (d : dyn) : state :=
  mk_state (st_connected st) (st_key st) (st_cmd st) true (st_ctx st) k f d.

(** * helpers/response.h, session_id.h, cmd_macros.h *)

Definition result := (state * list output)%type.

(** response.h: io_send_sw.  [SW_UB] is not a response. *)
Definition resp (s : sw) : output := match s with SW_UB => OUb | _ => OResp [] s end.

(** The handlers' handler_err / send_error (stx_handler.c:19-23, ainpt_handler.c:35-39,
    ainpt_response.c:16-19, epk_handler.c:23-27, da_handler.c:24-28, da_ui.c:52-55). *)
Definition handler_err (st : state) (s : sw) : result := (set_command st CMD_NONE, [resp s]).

(** session_id.h:8-14: [None] when the candidates run out. *)
Fixpoint session_id_new_random (old : N) (ids : list N) : option N :=
  match ids with
  | [] => None
  | i :: t => if (i =? 0) || (i =? old) then session_id_new_random old t else Some i
  end.
(** session_id.h:16-18 *)
Definition is_known_application (saved app_id : N) : bool :=
  negb (saved =? 0) && negb (app_id =? 0) && (app_id =? saved).

(** CHECK_READ_PARAM (cmd_macros.h:20-21) *)
Definition rd {A} (x : option A) : out A :=
  match x with Some a => Ok a | None => Fail SW_NOT_ENOUGH_DATA end.
(** CHECK_PARAMS_FINISHED (cmd_macros.h:23-24) *)
Definition finished {A} (rest : bytes) (a : A) : out A :=
  match rest with [] => Ok a | _ => Fail SW_TOO_MUCH_DATA end.
(** The optional application token. *)
Definition rd_token (has_token : bool) (l : bytes) : out (N * bytes) :=
  if has_token then rd (read_u32 l) else Ok (0, l).

(** crypto.c:81-106: public key (65 bytes) and chain code. *)
Definition generate_public_key (E : env) (p : path) : option (bytes * bytes) :=
  match e_derive E p with
  | None => None
  | Some (priv, chain) => match e_mulG E priv with
                          | None => None
                          | Some pk => Some (pk, chain)
                          end
  end.

Section Handlers.
  Variable E : env.

  (** * Extended public key *)

  (** epk_response.c:20-32; the writes fill the 65-byte buffer exactly. *)
  Definition epk_response (pk chain : bytes) : bytes := compress pk ++ chain.

  (** epk_handler.c:37-46 *)
  Definition parse_epk (has_token : bool) (data : bytes) : out (path * N) :=
    bind (rd (read_u8 data)) (fun '(n, l) =>
    bind (rd (read_bip32_path n l)) (fun '(p, l) =>
    bind (rd_token has_token l) (fun '(t, l) => finished l (p, t)))).

  (** epk_handler.c:29-73 and epk_ui.c:40-87 *)
  Definition handler_epk (st : state) (data : bytes) (has_token : bool) : result :=
    if st_busy st then (st, [resp SW_BUSY])
    else
      let st := set_command st CMD_EPK in
      match parse_epk has_token data with
      | Fail s => handler_err st s
      | Ok (p, token) =>
          if negb (ergo_path_validate p V_ACCOUNT_GE3) then handler_err st SW_BIP32_BAD_PATH
          else match generate_public_key E p with
          | None => handler_err st SW_INTERNAL_CRYPTO_ERROR
          | Some (pk, chain) =>
              if is_known_application token (st_connected st) then
                (set_command st CMD_NONE, [OResp (epk_response pk chain) SW_OK])
              else
                match ui_bip32_path_screen p (str "Path") 60 false with
                | None => handler_err (overwrite [SC_INFO (str "Ext PubKey Export")] st) SW_BIP32_FORMATTING_FAILED
                | Some s =>
                    let f := add s (add (SC_INFO (str "Ext PubKey Export")) []) in
                    let f := if token =? 0 then f else add (ui_application_id_screen token) f in
                    match ui_approve_reject_screens f with
                    | None => handler_err st SW_UB
                    | Some f =>
                        match ui_display_screens f with
                        | None => (set_ctx st (X_EPK (mk_epk token chain pk)), [])
                        | Some f => (show (set_ctx st (X_EPK (mk_epk token chain pk))) U_EPK f dyn_none,
                                     [OShow U_EPK f []])
                        end
                    end
                end
          end
      end.

  (** epk_ui.c:22-38 *)
  Definition ui_action_epk (st : state) (c : epk_ctx) (approved : bool) : result :=
    let st := set_busy st false in
    let '(st, o) :=
      if approved then
        (set_connected st (ep_token c), OResp (epk_response (ep_key c) (ep_chain c)) SW_OK)
      else (st, resp SW_DENY) in
    (ui_menu_main (set_command st CMD_NONE), [o]).

  (** * Derive address *)

  (** da_handler.c:38-51 *)
  Definition parse_da (has_token : bool) (data : bytes) : out (N * path * N) :=
    bind (rd (read_u8 data)) (fun '(net, l) =>
    bind (rd (read_u8 l)) (fun '(n, l) =>
    bind (rd (read_bip32_path n l)) (fun '(p, l) =>
    bind (rd_token has_token l) (fun '(t, l) => finished l (net, p, t))))).

  Definition P2PK_ADDRESS_STRING_MAX_LEN : nat := 55.

  (** da_ui.c:58-119: the screens before the approve/reject pair. *)
  Definition da_screens (send : bool) (token : N) (p : path) (addr : bytes) : out flow :=
    let f := add (SC_INFO (str (if send then "Confirm Send Address" else "Confirm Address"))) [] in
    match ui_bip32_path_screen p (str "Path") 60 false with
    | None => Fail SW_BIP32_FORMATTING_FAILED
    | Some s =>
        let f := add s f in
        bind (if send then Ok f
              else match base58_encode addr P2PK_ADDRESS_STRING_MAX_LEN with
                   | None => Fail SW_ADDRESS_FORMATTING_FAILED
                   | Some t =>
                       if Nat.leb P2PK_ADDRESS_STRING_MAX_LEN (length t)
                       then Fail SW_ADDRESS_FORMATTING_FAILED
                       else Ok (add (SC_TEXT (str "Address") t) f)
                   end) (fun f =>
        let f := if token =? 0 then f else add (ui_application_id_screen token) f in
        match ui_approve_reject_screens f with
        | None => Fail SW_UB
        | Some f => Ok f
        end)
    end.

  (** The cells written when they fail: da_ui.c:78-79, 92. *)
  Definition da_written (send : bool) (p : path) : flow :=
    SC_INFO (str (if send then "Confirm Send Address" else "Confirm Address")) ::
    match ui_bip32_path_screen p (str "Path") 60 false with None => [] | Some s => [s] end.

  (** da_handler.c:30-79; an address that cannot be generated is reported without
      resetting the command (line 66). *)
  Definition handler_da (st : state) (data : bytes) (disp has_token : bool) : result :=
    if st_busy st then (st, [resp SW_BUSY])
    else
      let st := set_command st CMD_DA in
      match parse_da has_token data with
      | Fail s => handler_err st s
      | Ok (net, p, token) =>
          if negb (ergo_path_validate p V_ADDRESS_GE5) then handler_err st SW_BIP32_BAD_PATH
          else match generate_public_key E p with
          | None => handler_err st SW_INTERNAL_CRYPTO_ERROR
          | Some (pk, _) =>
              match ergo_address_from_pubkey (e_blake E) net pk with
              | None => (st, [resp SW_ADDRESS_GENERATION_FAILED])
              | Some addr =>
                  if negb disp && is_known_application token (st_connected st) then
                    (set_command st CMD_NONE, [OResp addr SW_OK])
                  else
                    match da_screens (negb disp) token p addr with
                    | Fail s => handler_err (overwrite (da_written (negb disp) p) st) s
                    | Ok f =>
                        let st := set_ctx st (X_DA (mk_da token addr (negb disp))) in
                        match ui_display_screens f with
                        | None => (st, [])
                        | Some f => (show st U_DA f dyn_none, [OShow U_DA f []])
                        end
                    end
              end
          end
      end.

  (** da_ui.c:32-50 *)
  Definition ui_action_da (st : state) (c : da_ctx) (approved : bool) : result :=
    let st := set_busy st false in
    let '(st, o) :=
      if approved then
        let st := set_connected st (da_token c) in
        if da_send c then (set_command st CMD_NONE, OResp (da_address c) SW_OK)
        else (set_command st CMD_NONE, resp SW_OK)
      else (set_command st CMD_NONE, resp SW_DENY) in
    (ui_menu_main st, [o]).

  (** * Attest input *)

  (** ainpt_handler.c:52-69 *)
  Definition attest_token_cb (_ : box_type) (id : token_id) (value : N)
             (tokens : list (token_id * N)) : res * list (token_id * N) :=
    if TOKEN_MAX_COUNT <=? blen tokens then (R_TOO_MANY_TOKENS, tokens)
    else if existsb (fun t => bytes_eqb id (fst t)) tokens then (R_BAD_TOKEN_ID, tokens)
    else (R_OK, tokens ++ [(id, value)]).

  (** ainpt_handler.c:106 *)
  Definition attest_box_cb : box_callbacks (list (token_id * N)) :=
    mk_box_callbacks None (Some attest_token_cb) None.

  (** Parameters of the first command. *)
  Record attest_params := mk_ap {
    ap_tx_id : bytes; ap_index : N; ap_value : N; ap_tree_size : N; ap_height : N;
    ap_tokens_count : N; ap_regs_size : N; ap_token : N }.

  (** ainpt_handler.c:75-87 *)
  Definition parse_attest_init (has_token : bool) (data : bytes) : out attest_params :=
    bind (rd (read_bytes ERGO_ID_LEN data)) (fun '(id, l) =>
    bind (rd (read_u16 l)) (fun '(index, l) =>
    bind (rd (read_u64 l)) (fun '(value, l) =>
    bind (rd (read_u32 l)) (fun '(tree, l) =>
    bind (rd (read_u32 l)) (fun '(height, l) =>
    bind (rd (read_u8 l)) (fun '(tokens, l) =>
    bind (rd (read_u32 l)) (fun '(regs, l) =>
    bind (rd_token has_token l) (fun '(t, l) =>
    finished l (mk_ap id index value tree height tokens regs t))))))))).

  (** ainpt_ui.c:34-51 *)
  Definition attest_screens (token : N) : option flow :=
    let f := add (SC_INFO (str "Confirm Attest Input")) [] in
    let f := if token =? 0 then f else add (ui_application_id_screen token) f in
    ui_approve_reject_screens f.

  (** ainpt_handler.c:71-117 *)
  Definition attest_init (st : state) (data : bytes) (has_token : bool) (r : rnd) : result :=
    match parse_attest_init has_token data with
    | Fail s => handler_err st s
    | Ok a =>
        let '(res, b) := box_init (ap_value a) (ap_tree_size a) (ap_height a) (ap_tokens_count a)
                                  (ap_regs_size a) [] ([] : list (token_id * N)) in
        if negb (res_pass res) then handler_err st (sw_of_res res)
        else match session_id_new_random 0 (r_ids r) with
        | None => (st, [ODiverge])
        | Some session =>
            let c s := X_ATTEST (mk_attest s session (ap_tx_id a) (ap_index a) (bs_box b)
                                           (bs_hash b) [] (ap_token a)) in
            if is_known_application (st_connected st) (ap_token a) then
              (set_ctx st (c AT_APPROVED), [OResp [session] SW_OK])
            else match attest_screens (ap_token a) with
            | None => handler_err st SW_UB
            | Some f =>
                match ui_display_screens f with
                | None => (set_ctx st (c AT_INITIALIZED), [])
                | Some f => (show (set_ctx st (c AT_INITIALIZED)) U_ATTEST f dyn_none,
                             [OShow U_ATTEST f []])
                end
            end
        end
    end.

  Definition attest_bs (c : attest_ctx) : bs (list (token_id * N)) :=
    mk_bs (at_box c) (at_hash c) (at_tokens c).
  Definition attest_put (c : attest_ctx) (s : bs (list (token_id * N))) : attest_ctx :=
    mk_attest (at_state c) (at_session c) (at_id c) (at_index c) (bs_box s) (bs_hash s) (bs_cb s)
              (at_token c).

  (** ainpt_handler.c:41-50 *)
  Definition check_box_finished (st : state) (c : attest_ctx) : result :=
    match bx_state (at_box c) with
    | BX_FINISHED =>
        match box_id_hash (e_blake E) (attest_bs c) (at_id c) (at_index c) with
        | (R_OK, s, id) =>
            (set_ctx st (X_ATTEST (mk_attest AT_FINISHED (at_session c) id (at_index c) (bs_box s)
                                             (bs_hash s) (at_tokens c) (at_token c))),
             [OResp [get_frames_count (blen (at_tokens c))] SW_OK])
        | (r, _, _) => handler_err st (sw_of_res r)
        end
    | _ => (set_ctx st (X_ATTEST c), [resp SW_OK])
    end.

  (** ainpt_handler.c:119-135 with CHECK_CALL_BOX_FINISHED (22-33) *)
  Definition attest_box_call (st : state) (c : attest_ctx)
             (call : bs (list (token_id * N)) -> res * bs (list (token_id * N))) : result :=
    match at_state c with
    | AT_APPROVED =>
        let '(r, s) := call (attest_bs c) in
        match r with
        | R_OK => check_box_finished st (attest_put c s)
        | R_MORE_DATA => (set_ctx st (X_ATTEST (attest_put c s)), [resp SW_OK])
        | _ => handler_err st (sw_of_res r)
        end
    | _ => handler_err st SW_BAD_STATE
    end.

  (** ainpt_handler.c:137-145, ainpt_response.c:21-58 *)
  Definition attest_get_frame (st : state) (c : attest_ctx) (data : bytes) : result :=
    match at_state c with
    | AT_FINISHED =>
        match bind (rd (read_u8 data)) (fun '(i, l) => finished l i) with
        | Fail s => handler_err st s
        | Ok index =>
            if get_frames_count (blen (at_tokens c)) <=? index then handler_err st SW_BAD_FRAME_INDEX
            else (st, [OResp (attested_frame (e_hmac E) (st_key st) (at_id c)
                                             (bx_value (at_box c)) (at_tokens c) index) SW_OK])
        end
    | _ => handler_err st SW_BAD_STATE
    end.

  (** ainpt_handler.c:147-181 *)
  Definition handler_attest (st : state) (data : bytes) (sub session_or_token : N) (r : rnd) : result :=
    let in_session (k : attest_ctx -> result) :=
      match st_cmd st with
      | CMD_ATTEST =>
          match st_ctx st with
          | X_ATTEST c => if session_or_token =? at_session c then k c
                          else handler_err st SW_BAD_SESSION_ID
          | _ => handler_err st SW_UB
          end
      | _ => handler_err st SW_BAD_STATE
      end in
    if st_busy st then (st, [resp SW_BUSY])
    else match sub with
    | 0x01 =>
        if negb (session_or_token =? 1) && negb (session_or_token =? 2)
        then handler_err st SW_WRONG_P1P2
        else attest_init (set_command st CMD_ATTEST) data (session_or_token =? 2) r
    | 0x02 => in_session (fun c => attest_box_call st c (fun s => box_add_tree attest_box_cb s data))
    | 0x03 => in_session (fun c => attest_box_call st c (fun s => box_add_tokens attest_box_cb s data None))
    | 0x04 => in_session (fun c => attest_box_call st c (fun s => box_add_registers attest_box_cb s data))
    | 0x05 => in_session (fun c => attest_get_frame st c data)
    | _ => handler_err st SW_WRONG_SUBCOMMAND
    end.

  (** ainpt_ui.c:18-32 *)
  Definition ui_action_attest (st : state) (c : attest_ctx) (approved : bool) : result :=
    let st := set_busy st false in
    let '(st, o) :=
      if approved then
        let st := set_connected st (at_token c) in
        (set_ctx st (X_ATTEST (mk_attest AT_APPROVED (at_session c) (at_id c) (at_index c) (at_box c)
                                         (at_hash c) (at_tokens c) (at_token c))),
         OResp [at_session c] SW_OK)
      else (set_command st CMD_NONE, resp SW_DENY) in
    (ui_menu_main st, [o]).

  (** * Sign transaction *)

  (** stx_handler.c:25-31 *)
  Definition stx_read_bip32_path (l : bytes) : out (path * bytes) :=
    match read_u8 l with
    | None => Fail SW_BUFFER_ERROR
    | Some (n, l) => match read_bip32_path n l with
                     | None => Fail SW_BUFFER_ERROR
                     | Some x => Ok x
                     end
    end.

  (** stx_handler.c:65-71 *)
  Definition parse_sign_init (has_token : bool) (data : bytes) : out (N * path * N) :=
    bind (rd (read_u8 data)) (fun '(net, l) =>
    bind (stx_read_bip32_path l) (fun '(p, l) =>
    bind (rd_token has_token l) (fun '(t, l) => finished l (net, p, t)))).

  (** stx_handler.c:61-89 *)
  Definition sign_init (st : state) (data : bytes) (has_token : bool) (r : rnd) : result :=
    match parse_sign_init has_token data with
    | Fail s => handler_err st s
    | Ok (net, p, token) =>
        match p2pk_init E (r_nonces r) p net with
        | Fail s => handler_err st s
        | Ok op =>
            match session_id_new_random 0 (r_ids r) with
            | None => (st, [ODiverge])
            | Some session =>
                match p2pk_show_token_and_path op token
                        (is_known_application (st_connected st) token) with
                | Fail s => handler_err st s
                | Ok (f, op) =>
                    (show (set_ctx st (X_SIGN (mk_sign SG_INITIALIZED session op))) U_STX_APPROVE f dyn_none,
                     [OShow U_STX_APPROVE f []])
                end
            end
        end
    end.

  (** What a handler does after its operation call: respond, show the output if needed
      (stx_handler.c:49-59), or show the final confirmation. *)
  Inductive after := A_OK | A_OUTPUT | A_CONFIRM.

  (** stx_handler.c:91-110 *)
  Definition parse_tx_start (data : bytes) : out (N * N * N * N) :=
    bind (rd (read_u16 data)) (fun '(inputs, l) =>
    bind (rd (read_u16 l)) (fun '(data_inputs, l) =>
    bind (rd (read_u8 l)) (fun '(tokens, l) =>
    bind (rd (read_u16 l)) (fun '(outputs, l) =>
    finished l (inputs, data_inputs, tokens, outputs))))).

  (** A verified input frame (stx_handler.c:119-180). *)
  Record input_frame := mk_frame {
    if_box_id : bytes; if_frames_count : N; if_index : N; if_value : N;
    if_tokens : bytes; if_ext_len : N }.

  (** stx_handler.c:125-165: the context extension length is only read for frame 0
      (0 here otherwise); bytes after it are ignored. *)
  Definition parse_input_frame (key data : bytes) : out input_frame :=
    let n := input_frame_data_length data in
    if n =? 0 then Fail SW_NOT_ENOUGH_DATA
    else if negb (bytes_eqb (firstn FRAME_SIGNATURE_LEN (e_hmac E key (firstn (N.to_nat n) data)))
                            (firstn FRAME_SIGNATURE_LEN (skipn (N.to_nat n) data)))
    then Fail SW_BAD_FRAME_SIGNATURE
    else
      bind (rd (read_bytes ERGO_ID_LEN data)) (fun '(id, l) =>
      bind (rd (read_u8 l)) (fun '(frames_count, l) =>
      bind (rd (read_u8 l)) (fun '(frame_index, l) =>
      bind (rd (read_u64 l)) (fun '(value, l) =>
      bind (rd (read_u8 l)) (fun '(tokens_count, l) =>
      let tokens_len := u8 (tokens_count * FRAME_PAIR_SIZE) in
      if blen l <? tokens_len + N.of_nat FRAME_SIGNATURE_LEN then Fail SW_NOT_ENOUGH_DATA
      else
        let tokens := firstn (N.to_nat tokens_len) l in
        let l := skipn (N.to_nat tokens_len + FRAME_SIGNATURE_LEN) l in
        if frame_index =? 0 then
          bind (rd (read_u32 l)) (fun '(ext, _) =>
          Ok (mk_frame id frames_count frame_index value tokens ext))
        else Ok (mk_frame id frames_count frame_index value tokens 0)))))).

  (** stx_handler.c:199-207 *)
  Definition parse_output_init (data : bytes) : out (N * N * N * N * N) :=
    bind (rd (read_u64 data)) (fun '(value, l) =>
    bind (rd (read_u32 l)) (fun '(tree, l) =>
    bind (rd (read_u32 l)) (fun '(height, l) =>
    bind (rd (read_u8 l)) (fun '(tokens, l) =>
    bind (rd (read_u32 l)) (fun '(regs, l) =>
    finished l (value, tree, height, tokens, regs)))))).

  (** stx_handler.c:91-268 for every subcommand but SIGN_PK and CONFIRM: the operation
      call and what follows it.  [None]: not such a subcommand. *)
  Definition sign_exec (key : bytes) (op : p2pk) (sub : N) (data : bytes) : option (out p2pk * after) :=
    match sub with
    | 0x10 => Some (bind (parse_tx_start data) (fun '(i, d, t, o) => p2pk_start_tx op i d o t), A_OK)
    | 0x11 => Some (p2pk_add_tokens op data, A_OK)
    | 0x12 =>
        Some (bind (parse_input_frame key data) (fun f =>
              bind (if if_index f =? 0
                    then p2pk_add_input op (if_box_id f) (if_value f) (if_frames_count f) (if_ext_len f)
                    else Ok op) (fun op =>
              p2pk_add_input_tokens op (if_box_id f) (if_index f) (if_tokens f))), A_OK)
    | 0x13 => Some (p2pk_add_input_context_extension op data, A_OK)
    | 0x14 => Some (p2pk_add_data_inputs op data, A_OK)
    | 0x15 => Some (bind (parse_output_init data) (fun '(v, t, h, n, r) => p2pk_add_output op v t h n r),
                    A_OK)
    | 0x16 => Some (p2pk_add_output_tree_chunk E op data, A_OUTPUT)
    | 0x17 => Some (bind (finished data tt) (fun _ => p2pk_add_output_tree_fee E op), A_OUTPUT)
    | 0x18 =>
        Some (bind (stx_read_bip32_path data) (fun '(p, _) =>
              if negb (ergo_path_validate p V_ADDRESS_GE5) then Fail SW_BIP32_BAD_PATH
              else match generate_public_key E p with
                   | None => Fail SW_INTERNAL_CRYPTO_ERROR
                   | Some (pk, _) => p2pk_add_output_tree_change E op p pk
                   end), A_OUTPUT)
    | 0x19 => Some (p2pk_add_output_tokens E op data, A_OUTPUT)
    | 0x1A => Some (p2pk_add_output_registers E op data, A_OUTPUT)
    | 0x20 => Some (Ok op, A_CONFIRM)
    | _ => None
    end.

  (** Page [i] of the flow on the screen. *)
  Definition page_of (k : ui_kind) (c : ctx) (i : N) : page :=
    match k, c with
    | U_STX_OUTPUT, X_SIGN g =>
        match op_union_of (sg_op g) with
        | OU_TX t => match tx_output t with
                     | Some o => display_output_page E o (am_table (op_amounts (sg_op g)))
                                                     (op_network (sg_op g)) i
                     | None => Fail SW_UB
                     end
        | _ => Fail SW_UB
        end
    | U_STX_TX, X_SIGN g => display_tx_page E (sg_op g) i
    | _, _ => Fail SW_UB
    end.
  Definition pages_of (k : ui_kind) (c : ctx) (count : N) : list page :=
    map (fun i => page_of k c (N.of_nat i)) (seq 0 (N.to_nat count)).

  Definition show_dynamic (st : state) (k : ui_kind) (f : flow) (d : dyn) (c : ctx) : result :=
    (show (set_ctx st c) k f d, [OShow k f (pages_of k c (dy_count d))]).

  (** stx_handler.c:49-59 *)
  Definition show_output_screen_if_needed (st : state) (g : sign_ctx) (op : p2pk) : result :=
    let put op := X_SIGN (mk_sign (sg_state g) (sg_session g) op) in
    match p2pk_should_show_output op with
    | None => handler_err st SW_UB
    | Some true =>
        match p2pk_show_output_confirm_screen op with
        | Fail s => handler_err st s
        | Ok (f, d, op) => show_dynamic st U_STX_OUTPUT f d (put op)
        end
    | Some false => (set_ctx st (put op), [resp SW_OK])
    end.

  (** stx_handler.c:91-275: state check, operation, continuation. *)
  Definition sign_command (st : state) (g : sign_ctx) (sub : N) (data : bytes) : result :=
    match sg_state g with
    | SG_APPROVED =>
        match sign_exec (st_key st) (sg_op g) sub data with
        | None => handler_err st SW_WRONG_SUBCOMMAND
        | Some (Fail s, _) => handler_err st s
        | Some (Ok op, A_OK) => (set_ctx st (X_SIGN (mk_sign SG_APPROVED (sg_session g) op)), [resp SW_OK])
        | Some (Ok op, A_OUTPUT) => show_output_screen_if_needed st g op
        | Some (Ok op, A_CONFIRM) =>
            match p2pk_show_confirm_screen op with
            | Fail s => handler_err st s
            | Ok (f, d, op) => show_dynamic st U_STX_TX f d (X_SIGN (mk_sign SG_APPROVED (sg_session g) op))
            end
        end
    | _ => handler_err st SW_BAD_STATE
    end.

  (** stx_handler.h:11-25 *)
  Definition is_sign_subcommand (sub : N) : bool :=
    ((0x10 <=? sub) && (sub <=? 0x1A)) || (sub =? 0x20).

  (** stx_handler.c:277-343 *)
  Definition handler_sign (st : state) (data : bytes) (sub session_or_token : N) (r : rnd) : result :=
    if st_busy st then (st, [resp SW_BUSY])
    else if sub =? 0x01 then
      if negb (session_or_token =? 1) && negb (session_or_token =? 2)
      then (st, [resp SW_WRONG_P1P2])
      else sign_init (set_command st CMD_SIGN) data (session_or_token =? 2) r
    else if is_sign_subcommand sub then
      match st_cmd st with
      | CMD_SIGN =>
          match st_ctx st with
          | X_SIGN g => if session_or_token =? sg_session g then sign_command st g sub data
                        else handler_err st SW_BAD_SESSION_ID
          | _ => handler_err st SW_UB
          end
      | _ => handler_err st SW_BAD_STATE
      end
    else handler_err st SW_WRONG_SUBCOMMAND.

  (** stx_ui.c:69-84 *)
  Definition ui_action_stx_approve (st : state) (g : sign_ctx) (approved : bool) : result :=
    let st := set_busy st false in
    let '(st, o) :=
      if approved then
        match op_union_of (sg_op g) with
        | OU_APPROVE token =>
            (set_ctx (set_connected st token) (X_SIGN (mk_sign SG_APPROVED (sg_session g) (sg_op g))),
             OResp [sg_session g] SW_OK)
        | _ => (st, OUb)
        end
      else (set_command st CMD_NONE, resp SW_DENY) in
    (ui_menu_main st, [o]).

  (** stx_ui.c:220-241 *)
  Definition ui_action_stx_output (st : state) (g : sign_ctx) (approved : bool) : result :=
    let st := set_busy st false in
    match op_union_of (sg_op g) with
    | OU_TX t =>
        match tx_output t with
        | None => (ui_menu_main st, [OUb])
        | Some o =>
            if approved then
              let last := match oi_type o with OT_BIP32 p => p | _ => [] end in
              let op := op_set_union (sg_op g) (OU_TX (mk_tx (tx_full t) (Some o) last)) in
              (ui_menu_main (set_ctx st (X_SIGN (mk_sign (sg_state g) (sg_session g) op))), [resp SW_OK])
            else (ui_menu_main (set_command st CMD_NONE), [resp SW_DENY])
        end
    | _ => (ui_menu_main st, [OUb])
    end.

  (** stx_ui.c:350-362 with stx_op_p2pk.c:381-413 *)
  Definition ui_action_stx_tx (st : state) (g : sign_ctx) (approved : bool) : result :=
    let st := set_busy st false in
    let o :=
      if approved then
        match p2pk_send_response E (sg_op g) with
        | Ok s => OResp s SW_OK
        | Fail s => resp s
        end
      else resp SW_DENY in
    (ui_menu_main (set_command st CMD_NONE), [o]).

  (** * Dispatcher *)

  (** constants.h, Makefile: version 0.0.5, release build; app_version.c:9-24. *)
  Definition APP_VERSION : bytes := [0; 0; 5; 0].
  (** app_name.c:10-15 *)
  Definition APP_NAME : bytes := str "Ergo".

  (** apdu_dispatcher.c:16-58 *)
  Definition apdu_dispatcher (st : state) (cla ins p1 p2 : N) (data : bytes) (r : rnd) : result :=
    if negb (cla =? 0xE0) then (st, [resp SW_CLA_NOT_SUPPORTED])
    else match ins with
    | 0x01 => if negb (p1 =? 0) || negb (p2 =? 0) then (st, [resp SW_WRONG_P1P2])
              else (st, [OResp APP_VERSION SW_OK])
    | 0x02 => if negb (p1 =? 0) || negb (p2 =? 0) then (st, [resp SW_WRONG_P1P2])
              else (st, [OResp APP_NAME SW_OK])
    | 0x10 => if (p1 =? 0) || (2 <? p1) || (0 <? p2) then (st, [resp SW_WRONG_P1P2])
              else handler_epk st data (p1 =? 2)
    | 0x11 => if (p1 =? 0) || (2 <? p1) || (p2 =? 0) || (2 <? p2) then (st, [resp SW_WRONG_P1P2])
              else handler_da st data (p1 =? 2) (p2 =? 2)
    | 0x20 => if (p1 =? 0) || (p2 =? 0) then (st, [resp SW_WRONG_P1P2])
              else handler_attest st data p1 p2 r
    | 0x21 => if (p1 =? 0) || (p2 =? 0) then (st, [resp SW_WRONG_P1P2])
              else handler_sign st data p1 p2 r
    | _ => (st, [resp SW_INS_NOT_SUPPORTED])
    end.

  (** ui_approve_reject.c:8-22: the callback the screens are bound to. *)
  Definition ui_action (st : state) (approved : bool) : result :=
    match st_ui st, st_ctx st with
    | (U_MENU | U_ABOUT), _ => (st, [])
    | U_EPK, X_EPK c => ui_action_epk st c approved
    | U_DA, X_DA c => ui_action_da st c approved
    | U_ATTEST, X_ATTEST c => ui_action_attest st c approved
    | U_STX_APPROVE, X_SIGN g => ui_action_stx_approve st g approved
    | U_STX_OUTPUT, X_SIGN g => ui_action_stx_output st g approved
    | U_STX_TX, X_SIGN g => ui_action_stx_tx st g approved
    | _, _ => (st, [OUb])
    end.

  (** ui_bip32_path.c:8-15: NULL callback for the address and key flows. *)
  Definition ui_path_both (st : state) : result :=
    match st_ui st, st_ctx st with
    | U_STX_APPROVE, X_SIGN g => ui_action_stx_approve st g true
    | U_STX_APPROVE, _ => (st, [OUb])
    | _, _ => (st, [])
    end.

  (** DISPLAY_DYNAMIC_STATE (ui_dynamic_flow.c:32-45) *)
  Definition display_dynamic (st : state) (x : dyn * option N) : result :=
    let st := set_dyn st (fst x) in
    match snd x with
    | None => (st, [])
    | Some i => match page_of (st_ui st) (st_ctx st) i with
                | Ok (title, body) => (st, [OPage i title body])
                | Fail SW_UB => (st, [OUb])
                | Fail s => (ui_menu_main (set_command st CMD_NONE), [resp s])
                end
    end.

  Definition has_pages (k : ui_kind) : bool :=
    match k with U_STX_OUTPUT | U_STX_TX => true | _ => false end.

  (** One event. *)
  Definition step (st : state) (e : event) : result :=
    match e with
    | Apdu cla ins p1 p2 data r => apdu_dispatcher st cla ins p1 p2 data r
    | BadApdu => (st, [resp SW_WRONG_APDU_DATA_LENGTH])
    | UiApprove => ui_action st true
    | UiReject => ui_action st false
    | UiPathBoth => ui_path_both st
    | UiUpper => if has_pages (st_ui st) then display_dynamic st (ui_dynamic_step_left (st_dyn st))
                 else (st, [])
    | UiLower => if has_pages (st_ui st) then display_dynamic st (ui_dynamic_step_right (st_dyn st))
                 else (st, [])
    | UiAbout => match st_ui st with U_MENU => (ui_menu_about st, []) | _ => (st, []) end
    | UiBack => match st_ui st with U_ABOUT => (ui_menu_main st, []) | _ => (st, []) end
    end.

  (** A run: the outputs of each event in turn. *)
  Fixpoint run (st : state) (evs : list event) : state * list (list output) :=
    match evs with
    | [] => (st, [])
    | e :: t => let '(st, o) := step st e in
                let '(st, os) := run st t in
                (st, o :: os)
    end.
End Handlers.
