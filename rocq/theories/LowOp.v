(** The signing operation once more with failing calls: stx_output.c, schnorr.c, crypto.c,
    address.c, stx_op_p2pk.c and the pages of stx_ui.c.  Functions of OutputInfo and
    P2pkOp that make no such call are reused. *)
From Coq Require Import String.
From Verif Require Import Base Env Bip32 Address ErgoTree Schnorr RwBuffer TxTable TxBox TxInput TxFull
  Amounts OutputInfo Format UiFlow P2pkOp App Fault LowTx.

Section LowOp.
  Variable E : env.
  Variable F : faults.

  (** * stx_output.c *)

  (** stx_output.c:22-34 *)
  Definition low_maybe_finished (c : output_info) : res * output_info :=
    if output_info_is_finished c then
      match oi_type c with
      | OT_SCRIPT t => if f_final F S_SCRIPT t then (R_HASHER, c)
                       else (R_OK, oi_set_type c (OT_SCRIPT_DONE (e_blake E t)))
      | OT_SCRIPT_DONE _ => (R_UB, c)
      | _ => (R_OK, c)
      end
    else (R_OK, c).
  Definition low_maybe_finished_sw (c : output_info) : sw * output_info :=
    let '(r, c) := low_maybe_finished c in (sw_of_res r, c).

  (** stx_output.c:36-47 *)
  Definition low_output_info_set_bip32 (c : output_info) (path : list N) : sw * output_info :=
    match oi_type c with
    | OT_UNKNOWN => low_maybe_finished_sw (oi_set_tree_set (oi_set_type c (OT_BIP32 path)))
    | _ => (SW_BAD_STATE, c)
    end.
  (** stx_output.c:49-56 *)
  Definition low_output_info_set_fee (c : output_info) : sw * output_info :=
    match oi_type c with
    | OT_UNKNOWN => low_maybe_finished_sw (oi_set_tree_set (oi_set_type c OT_MINERS_FEE))
    | _ => (SW_BAD_STATE, c)
    end.

  (** stx_output.c:69-84 *)
  Definition low_classify (c : output_info) (chunk : bytes) (is_finished : bool) : sw * output_info :=
    let c := classify_first_chunk c chunk is_finished in
    match oi_type c with
    | OT_SCRIPT _ => if f_init F then (SW_HASHER_ERROR, c) else (SW_OK, c)
    | _ => (SW_OK, c)
    end.
  (** stx_output.c:85-93 *)
  Definition low_script_chunk (c : output_info) (chunk : bytes) (is_finished : bool) : sw * output_info :=
    match oi_type c with
    | OT_SCRIPT t =>
        match update F S_SCRIPT t chunk with
        | (R_OK, t) =>
            let c := oi_set_type c (OT_SCRIPT t) in
            low_maybe_finished_sw (if is_finished then oi_set_tree_set c else c)
        | _ => (SW_HASHER_ERROR, c)
        end
    | _ => low_maybe_finished_sw c
    end.
  (** stx_output.c:58-94 *)
  Definition low_output_info_add_tree_chunk (c : output_info) (chunk : bytes) (is_finished : bool)
    : sw * output_info :=
    match oi_type c with
    | OT_UNKNOWN =>
        if oi_tree_set c then (SW_BAD_STATE, c)
        else match low_classify c chunk is_finished with
             | (SW_OK, c) => low_script_chunk c chunk is_finished
             | r => r
             end
    | OT_SCRIPT _ => if oi_tree_set c then (SW_BAD_STATE, c) else low_script_chunk c chunk is_finished
    | OT_SCRIPT_DONE _ => if oi_tree_set c then (SW_BAD_STATE, c) else (SW_UB, c)
    | _ => (SW_BAD_STATE, c)
    end.
  (** stx_output.c:110-114 *)
  Definition low_output_info_set_box_finished (c : output_info) : res * output_info :=
    low_maybe_finished (oi_set_box_finished c).

  (** * schnorr.c, crypto.c, address.c *)

  (** schnorr.c:32-86; [i] counts the rounds. *)
  Fixpoint low_schnorr_init_loop (secret : bytes) (i rounds : nat) (nonces : list bytes)
    : option (bytes * bytes) :=
    match rounds with
    | O => None
    | S k =>
        match f_round F i with
        | Some true => low_schnorr_init_loop secret (S i) k (tl nonces)
        | Some false => low_schnorr_init_loop secret (S i) k nonces
        | None => match schnorr_round E secret (hd (repeat 0 32) nonces) with
                  | Some r => Some r
                  | None => low_schnorr_init_loop secret (S i) k (tl nonces)
                  end
        end
    end.
  (** crypto.c:49-65 *)
  Definition low_private_key (p : path) : option (bytes * bytes) :=
    if f_derive F then None else e_derive E p.
  (** crypto.c:81-106 *)
  Definition low_generate_public_key (p : path) : option (bytes * bytes) :=
    match low_private_key p with
    | None => None
    | Some (priv, chain) =>
        if f_pub F then None
        else match e_mulG E priv with
             | None => None
             | Some pk => Some (pk, chain)
             end
    end.
  (** schnorr.c:90-118 *)
  Definition low_schnorr_sign_finish (hash secret key : bytes) : option bytes :=
    if f_finish F then None else schnorr_sign_finish E hash secret key.

  (** address.c:16-55 and 69-92: [content] are the pieces written after the first byte,
      [size] the size of the array the address is written to. *)
  Definition low_address (size type network : N) (content : list bytes) : out bytes :=
    if negb (network_id_is_valid network) then Fail SW_ADDRESS_GENERATION_FAILED
    else match write_all (array_buffer F size) (be_bytes 1 (type + network) :: content) with
    | B_ub => Fail SW_UB
    | B_fail _ => Fail SW_ADDRESS_GENERATION_FAILED
    | B_ok b _ =>
        match written b with
        | None => Fail SW_UB
        | Some body =>
            if f_hash F body then Fail SW_ADDRESS_GENERATION_FAILED
            else match rw_buffer_write_bytes b (firstn 4 (e_blake E body)) with
                 | B_ub => Fail SW_UB
                 | B_fail _ => Fail SW_ADDRESS_GENERATION_FAILED
                 | B_ok b _ => Ok (rb_mem b)
                 end
        end
    end.
  (** address.c:57-61 with 35-41 *)
  Definition low_address_from_pubkey (network : N) (raw : bytes) : out bytes :=
    low_address 38 1 network
      [be_bytes 1 (if N.land (nth 64 raw 0) 1 =? 0 then 0x02 else 0x03); firstn 32 (skipn 1 raw)].
  (** address.c:63-67 *)
  Definition low_address_from_compressed_pubkey (network : N) (pk : bytes) : out bytes :=
    low_address 38 1 network [pk].
  (** address.c:69-92 *)
  Definition low_address_from_script_hash (network : N) (hash : bytes) : out bytes :=
    low_address 29 2 network [firstn 24 hash].

  (** * stx_op_p2pk.c *)

  (** stx_op_p2pk.c:58-63 *)
  Definition low_output_finished_cb (_ : box_type) (c : cbctx) : res * cbctx :=
    match snd c with
    | None => (R_UB, c)
    | Some o => let '(r, o') := low_output_info_set_box_finished o in (r, (fst c, Some o'))
    end.
  Definition low_box_cb : box_callbacks cbctx :=
    mk_box_callbacks (Some p2pk_output_type_cb) (Some p2pk_output_token_cb) (Some low_output_finished_cb).

  (** stx_op_p2pk.c:65-99 *)
  Definition low_p2pk_init (nonces : list bytes) (p : path) (network : N) : out p2pk :=
    if negb (ergo_path_validate p V_ADDRESS_GE5) then Fail SW_BIP32_BAD_PATH
    else if negb (network_id_is_supported network) then Fail SW_BAD_NET_TYPE_VALUE
    else match low_private_key p with
    | None => Fail SW_INTERNAL_CRYPTO_ERROR
    | Some (secret, _) =>
        match low_schnorr_init_loop secret 0 MAX_ITERATIONS nonces with
        | None => Fail SW_INTERNAL_CRYPTO_ERROR
        | Some (hash, key) =>
            Ok (mk_p2pk OP_INITIALIZED key p hash network (mk_amounts 0 0 (repeat 0%Z 20) [])
                        (OU_APPROVE 0))
        end
    end.

  (** stx_op_p2pk.c:101-118 *)
  Definition low_p2pk_start_tx (c : p2pk) (inputs data_inputs outputs tokens : N) : out p2pk :=
    match op_state_of c with
    | OP_INITIALIZED =>
        let '(r, s) := low_full_init F op_tget op_tset inputs data_inputs outputs tokens
                                     (op_hash c) (op_amounts c, None) in
        match tx_result r with
        | Some e => Fail e
        | None =>
            Ok (mk_p2pk OP_TX_STARTED (op_key c) (op_path c) (fs_hash s) (op_network c)
                        amounts_init (OU_TX (mk_tx (fs_full s) None [])))
        end
    | _ => Fail SW_BAD_STATE
    end.

  (** stx_op_p2pk.c:153-164 *)
  Definition low_p2pk_add_input_tokens (c : p2pk) (box_id : bytes) (frame_index : N) (tokens : bytes)
    : out p2pk :=
    match op_state_of c with
    | OP_INPUTS_STARTED =>
        tx_call c (fun s => low_full_add_input_tokens F op_tget p2pk_input_token_cb s box_id
                                                      frame_index tokens)
    | _ => Fail SW_BAD_STATE
    end.
  (** stx_op_p2pk.c:166-173 *)
  Definition low_p2pk_add_input_context_extension (c : p2pk) (data : bytes) : out p2pk :=
    match op_state_of c with
    | OP_INPUTS_STARTED =>
        tx_call c (fun s => low_full_add_input_context_extension F op_tget p2pk_input_token_cb s data)
    | _ => Fail SW_BAD_STATE
    end.
  (** stx_op_p2pk.c:175-181 *)
  Definition low_p2pk_add_data_inputs (c : p2pk) (data : bytes) : out p2pk :=
    match op_state_of c with
    | OP_INPUTS_STARTED => tx_call c (fun s => low_full_add_data_inputs F op_tget s data)
    | _ => Fail SW_BAD_STATE
    end.

  (** stx_op_p2pk.c:183-213 *)
  Definition low_p2pk_add_output (c : p2pk) (value tree_size height tokens_count regs_size : N)
    : out p2pk :=
    let go :=
      bind (tx_call c (fun s => low_full_add_box F s value tree_size height tokens_count regs_size))
           (fun c =>
      bind (tx_call c full_set_box_callbacks) (fun c =>
      match op_union_of c with
      | OU_TX t =>
          Ok (op_set_state
                (op_set_union c (OU_TX (mk_tx (tx_full t) (Some (output_info_init value))
                                              (tx_last_approved t))))
                OP_OUTPUTS_STARTED)
      | _ => Fail SW_UB
      end)) in
    match op_state_of c with
    | OP_INPUTS_STARTED | OP_OUTPUTS_STARTED => go
    | _ => Fail SW_BAD_STATE
    end.

  (** stx_op_p2pk.c:215-244 *)
  Definition low_p2pk_add_output_tree_chunk (c : p2pk) (data : bytes) : out p2pk :=
    match op_state_of c with
    | OP_OUTPUTS_STARTED =>
        match op_union_of c with
        | OU_TX t =>
            let '(r, s) := low_full_add_box_ergo_tree F low_box_cb (op_fs c t) data in
            let go is_finished :=
              bind (output_call (op_put c t s)
                      (fun o => low_output_info_add_tree_chunk o data is_finished))
                   check_tx_finished in
            match r with
            | R_OK => go true
            | R_MORE_DATA => go false
            | _ => Fail (sw_of_res r)
            end
        | _ => Fail SW_UB
        end
    | _ => Fail SW_BAD_STATE
    end.
  (** stx_op_p2pk.c:246-255 *)
  Definition low_p2pk_add_output_tree_fee (c : p2pk) : out p2pk :=
    match op_state_of c with
    | OP_OUTPUTS_STARTED =>
        bind (tx_call c (fun s => low_full_add_box_miners_fee_tree F low_box_cb s
                                    (network_id_is_mainnet (op_network c)))) (fun c =>
        bind (output_call c low_output_info_set_fee) check_tx_finished)
    | _ => Fail SW_BAD_STATE
    end.
  (** stx_op_p2pk.c:257-269 *)
  Definition low_p2pk_add_output_tree_change (c : p2pk) (p : path) (pub_key : bytes) : out p2pk :=
    match op_state_of c with
    | OP_OUTPUTS_STARTED =>
        bind (tx_call c (fun s => low_full_add_box_change_tree F low_box_cb s pub_key)) (fun c =>
        bind (output_call c (fun o => low_output_info_set_bip32 o p)) check_tx_finished)
    | _ => Fail SW_BAD_STATE
    end.
  (** stx_op_p2pk.c:271-278 *)
  Definition low_p2pk_add_output_tokens (c : p2pk) (data : bytes) : out p2pk :=
    match op_state_of c with
    | OP_OUTPUTS_STARTED =>
        bind (tx_call c (fun s => low_full_add_box_tokens F op_tget low_box_cb s data)) check_tx_finished
    | _ => Fail SW_BAD_STATE
    end.
  (** stx_op_p2pk.c:280-287 *)
  Definition low_p2pk_add_output_registers (c : p2pk) (data : bytes) : out p2pk :=
    match op_state_of c with
    | OP_OUTPUTS_STARTED =>
        bind (tx_call c (fun s => low_full_add_box_registers F low_box_cb s data)) check_tx_finished
    | _ => Fail SW_BAD_STATE
    end.

  (** stx_ui.c:118-168 *)
  Definition low_print_address (o : output_info) (network : N) : out (text * text) :=
    let t s := cstr TITLE_LEN (str s) in
    let text title a := match format_b58_id a TEXT_LEN with
                        | None => Fail SW_ADDRESS_FORMATTING_FAILED
                        | Some s => Ok (title, s)
                        end in
    let p2sh h := bind (low_address_from_script_hash network h) (text (t "Script Hash"%string)) in
    if negb (output_info_is_finished o) then Fail SW_BAD_STATE
    else match oi_type o with
    | OT_ADDRESS pk => bind (low_address_from_compressed_pubkey network pk) (text (t "Address"%string))
    | OT_SCRIPT_DONE h => p2sh (firstn 24 h)
    | OT_SCRIPT_HASH h => p2sh h
    | _ => output_info_print_address E o network
    end.
  (** stx_ui.c:170-218 *)
  Definition low_output_page (o : output_info) (table : token_table) (network screen : N)
    : out (text * text) :=
    if screen =? 0 then low_print_address o network else display_output_page E o table network screen.

  (** stx_op_p2pk.c:381-413 *)
  Definition low_p2pk_send_response (c : p2pk) : out bytes :=
    match op_state_of c with
    | OP_FINALIZED =>
        match low_private_key (op_path c) with
        | None => Fail SW_INTERNAL_CRYPTO_ERROR
        | Some (secret, _) =>
            match low_schnorr_sign_finish (op_hash c) secret (op_key c) with
            | None => Fail SW_SCHNORR_SIGNING_FAILED
            | Some s => Ok s
            end
        end
    | _ => Fail SW_BAD_STATE
    end.
End LowOp.
