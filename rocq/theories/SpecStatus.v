(** What the error codes say: for every request and every error code the fact that the
    code reports, about the request, the requests before it and the device's environment.
    The names of the codes are in src/sw.h; the documents do not list their causes. *)
From Verif Require Import Base Env TxTable UiFlow P2pkOp App SpecText SpecTree SpecTrace SpecTx SpecAmounts SpecApdu SpecScreen SpecRequest SpecSign SpecRules SpecAccept SpecAttest SpecStart.

(** ** Commands of a signing session
    [d] is the transaction described before the command, [h] its header. *)

(** No transaction was begun. *)
Definition no_header (d : s_tx) : Prop := sx_head d = None.

(** 0x10, header. *)
Definition header_error (d : s_tx) (data : bytes) (s : sw) : Prop :=
  match s with
  | SW_NOT_ENOUGH_DATA => (length data < 7)%nat
  | SW_TOO_MUCH_DATA => (7 < length data)%nat
  | SW_BAD_STATE => ~ no_header d
  | SW_BAD_INPUT_COUNT => num 0 2 data = 0
  | SW_BAD_OUTPUT_COUNT => num 5 2 data = 0
  | SW_TOO_MANY_TOKENS => TOKENS_MAX < num 4 1 data
  | _ => False
  end.
(** 0x11, distinct tokens. *)
Definition tokens_error (d : s_tx) (h : s_head) (data : bytes) (s : sw) : Prop :=
  match s with
  | SW_BAD_STATE => tokens_done d h
  | SW_TOO_MANY_TOKENS => sh_tokens h < blen (sx_tokens d ++ entries 32 data)
  | SW_BAD_TOKEN_ID => ~ entries_of 32 data
  | _ => False
  end.
(** 0x12, input frame; [d'] is the transaction with it. *)
Definition frame_index (data : bytes) : N := num 33 1 data.
Definition frame_error (d : s_tx) (h : s_head) (data : bytes) (d' : s_tx) (s : sw) : Prop :=
  match s with
  | SW_BAD_STATE =>
      ~ tokens_done d h \/ inputs_done d h \/
      (frame_index data = 0 /\ exists i, current_input d i /\ input_complete i = false) \/
      (0 < frame_index data /\ forall i, current_input d i -> blen (si_frames i) = si_count i)
  | SW_BAD_CONTEXT_EXTENSION_SIZE =>
      frame_index data = 0 /\
      ((4 < frame_ntokens data)%nat \/ exists i, current_input d' i /\ (si_ext_len i = 1 \/ PART_MAX < si_ext_len i))
  | SW_BAD_BOX_ID => 0 < frame_index data /\ exists i, current_input d i /\ si_id i <> slice 0 32 data
  | SW_TOO_MANY_INPUT_FRAMES => exists i, current_input d' i /\ si_count i <= frame_index data
  | SW_BAD_FRAME_INDEX => 0 < frame_index data /\ exists i, current_input d i /\ frame_index data <> blen (si_frames i)
  | SW_TOO_MANY_TOKENS => TOKENS_MAX < blen (sx_tokens d') + blen (undeclared d')
  | SW_U64_OVERFLOW => 2 ^ 64 <= total_in d' \/ exists id, (2 ^ 63 <= balance d' id)%Z
  | SW_BAD_TOKEN_ID | SW_BAD_TOKEN_VALUE => (4 < frame_ntokens data)%nat
  | _ => False
  end.
(** 0x13, context extension. *)
Definition extension_error (d : s_tx) (data : bytes) (s : sw) : Prop :=
  match s with
  | SW_BAD_STATE => ~ exists i, current_input d i /\ blen (si_frames i) = si_count i /\ blen (si_ext i) < si_ext_len i
  | SW_TOO_MUCH_DATA => exists i, current_input d i /\ si_ext_len i < blen (si_ext i ++ data)
  | _ => False
  end.
(** 0x14, data inputs. *)
Definition data_error (d : s_tx) (h : s_head) (data : bytes) (s : sw) : Prop :=
  match s with
  | SW_BAD_STATE => ~ inputs_done d h \/ data_done d h
  | SW_TOO_MANY_DATA_INPUTS => sh_data h < blen (sx_data d ++ entries 32 data)
  | SW_BAD_DATA_INPUT => ~ entries_of 32 data
  | _ => False
  end.
(** 0x15, new output. *)
Definition output_error (d : s_tx) (h : s_head) (data : bytes) (s : sw) : Prop :=
  match s with
  | SW_BAD_STATE => ~ inputs_done d h \/ ~ data_done d h \/ outputs_done d h
  | SW_TOO_MANY_TOKENS => TOKENS_MAX < num 16 1 data
  | SW_TOO_MUCH_DATA => PART_MAX < num 8 4 data \/ PART_MAX < num 17 4 data
  | _ => False
  end.
(** 0x16, script chunk. *)
Definition script_error (d : s_tx) (data : bytes) (s : sw) : Prop :=
  match s with
  | SW_BAD_STATE => ~ exists o, current_output d o /\ tree_complete o = false
  | SW_TOO_MUCH_DATA => exists o, current_output d o /\ so_tree_len o < blen (script_so_far o ++ data)
  | SW_SMALL_CHUNK => exists o, current_output d o /\ blen (script_so_far o ++ data) < so_tree_len o /\ (length data < 255)%nat
  | _ => False
  end.
(** 0x17, miners' fee, and 0x18, change; [d'] is the transaction with it. *)
Definition whole_error (d d' : s_tx) (s : sw) : Prop :=
  match s with
  | SW_BAD_STATE => ~ exists o, current_output d o /\ so_dest o = None
  | SW_U64_OVERFLOW => total_in d' < fees d' + change d'
  | _ => False
  end.
(** 0x19, tokens of the output; [d'] is the transaction with them. *)
Definition output_tokens_error (d : s_tx) (h : s_head) (data : bytes) (d' : s_tx) (s : sw) : Prop :=
  match s with
  | SW_BAD_STATE => ~ exists o, current_output d o /\ tree_complete o = true /\ blen (so_tokens o) < so_ntokens o
  | SW_TOO_MANY_TOKENS => exists o', current_output d' o' /\ so_ntokens o' < blen (so_tokens o')
  | SW_BAD_TOKEN_INDEX => ~ entries_of 12 data \/ ~ Forall (fun e => num 0 4 e < sh_tokens h) (entries 12 data)
  | SW_BAD_TOKEN_VALUE => ~ entries_of 12 data \/ exists o', current_output d' o' /\ ~ no_repeat (tokens_of d' o')
  | SW_U64_OVERFLOW => exists id, (balance d' id < - 2 ^ 63)%Z
  | _ => False
  end.
(** 0x1A, registers of the output. *)
Definition registers_error (d : s_tx) (data : bytes) (s : sw) : Prop :=
  match s with
  | SW_BAD_STATE => ~ exists o, current_output d o /\ tree_complete o = true /\ blen (so_tokens o) = so_ntokens o /\
                               blen (so_regs o) < so_regs_len o
  | SW_TOO_MUCH_DATA => exists o, current_output d o /\ so_regs_len o < blen (so_regs o ++ data)
  | _ => False
  end.

(** Errors in the data alone, looked for before the transaction is. *)
Definition layout_error (E : env) (key : bytes) (sub : N) (data : bytes) (s : sw) : Prop :=
  match sub with
  | 0x12 =>
      let off := (43 + 40 * frame_ntokens data + 16)%nat in
      s = SW_NOT_ENOUGH_DATA /\ ((length data < off)%nat \/ frame_index data = 0 /\ (length data < off + 4)%nat) \/
      s = SW_BAD_FRAME_SIGNATURE /\ ((4 < frame_ntokens data)%nat \/ frame_tag data <> firstn 16 (e_hmac E key (frame_body data)))
  | 0x15 => s = SW_NOT_ENOUGH_DATA /\ (length data < 21)%nat \/ s = SW_TOO_MUCH_DATA /\ (21 < length data)%nat
  | 0x17 => s = SW_TOO_MUCH_DATA /\ data <> []
  | 0x18 =>
      let p := path_at 0 data in
      s = SW_BUFFER_ERROR /\ (length data < 1 + 4 * length p \/ length p = 0 \/ 10 < length p)%nat \/
      s = SW_BIP32_BAD_PATH /\ ~ is_address_path p \/
      s = SW_INTERNAL_CRYPTO_ERROR /\ ~ derivable E p
  | _ => False
  end.

(** The code [s] in answer to the command [sub] with these data, when [d] was described. *)
Definition sign_error (E : env) (key : bytes) (d : s_tx) (sub : N) (data : bytes) (s : sw) : Prop :=
  let d' := describe_cmd d sub data in
  sub = 0x10 /\ header_error d data s \/
  layout_error E key sub data s \/
  sub <> 0x10 /\ no_header d /\ s = SW_BAD_STATE \/
  exists h, sx_head d = Some h /\
    match sub with
    | 0x11 => tokens_error d h data s
    | 0x12 => frame_error d h data d' s
    | 0x13 => extension_error d data s
    | 0x14 => data_error d h data s
    | 0x15 => output_error d h data s
    | 0x16 => script_error d data s
    | 0x17 | 0x18 => whole_error d d' s
    | 0x19 => output_tokens_error d h data d' s
    | 0x1A => registers_error d data s
    | 0x20 => s = SW_BAD_STATE /\ ~ outputs_done d h
    | _ => False
    end.

(** ** Commands of an attestation session
    [b] is the box described before the command. *)

(** 0x02, script chunk. *)
Definition box_chunk_error (b : s_box) (data : bytes) (s : sw) : Prop :=
  match s with
  | SW_BAD_STATE => script_done b
  | SW_TOO_MUCH_DATA => sb_tree_len b < blen (box_script b ++ data)
  | SW_SMALL_CHUNK => blen (box_script b ++ data) < sb_tree_len b /\ (length data < 255)%nat
  | _ => False
  end.
(** 0x03, tokens; [b'] is the box with them. *)
Definition box_tokens_error (b : s_box) (data : bytes) (b' : s_box) (s : sw) : Prop :=
  match s with
  | SW_BAD_STATE => ~ script_done b \/ blen (sb_tokens b) = sb_ntokens b
  | SW_TOO_MANY_TOKENS => sb_ntokens b < blen (sb_tokens b')
  | SW_BAD_TOKEN_ID => ~ entries_of 40 data \/ ~ NoDup (map fst (sb_tokens b'))
  | SW_BAD_TOKEN_VALUE => ~ entries_of 40 data
  | _ => False
  end.
(** 0x04, registers. *)
Definition box_registers_error (b : s_box) (data : bytes) (s : sw) : Prop :=
  match s with
  | SW_BAD_STATE => ~ script_done b \/ blen (sb_tokens b) < sb_ntokens b \/ blen (sb_regs b) = sb_regs_len b
  | SW_TOO_MUCH_DATA => sb_regs_len b < blen (sb_regs b ++ data)
  | _ => False
  end.
(** 0x05, frame request. *)
Definition box_frame_error (b : s_box) (data : bytes) (s : sw) : Prop :=
  match s with
  | SW_BAD_STATE => sb_complete b = false
  | SW_NOT_ENOUGH_DATA => data = []
  | SW_TOO_MUCH_DATA => (1 < length data)%nat
  | SW_BAD_FRAME_INDEX => exists i, data = [i] /\ frame_total b <= i
  | _ => False
  end.
Definition box_error (b : s_box) (sub : N) (data : bytes) (s : sw) : Prop :=
  match sub with
  | 0x02 => box_chunk_error b data s
  | 0x03 => box_tokens_error b data (sb_cmd b sub data) s
  | 0x04 => box_registers_error b data s
  | 0x05 => box_frame_error b data s
  | _ => False
  end.

(** ** Requests that open an exchange *)

(** The data are shorter, or longer, than their leading bytes call for. *)
Definition too_short (ins p1 p2 : N) (data : bytes) : Prop := exists n, fixed_length ins p1 p2 data = Some n /\ blen data < n.
Definition too_long (ins p1 p2 : N) (data : bytes) : Prop := exists n, fixed_length ins p1 p2 data = Some n /\ n < blen data.
(** The number of components of a path the device holds. *)
Definition holdable (p : list N) : Prop := (1 <= length p <= 10)%nat.

(** 0x10, extended public key. *)
Definition key_error (E : env) (tr : list obs) (p1 p2 : N) (data : bytes) (r : rnd) (s : sw) : Prop :=
  match s with
  | SW_NOT_ENOUGH_DATA => too_short INS_KEY p1 p2 data \/ ~ holdable (key_path data)
  | SW_TOO_MUCH_DATA => too_long INS_KEY p1 p2 data
  | SW_BIP32_BAD_PATH => ~ is_account_path (key_path data)
  | SW_INTERNAL_CRYPTO_ERROR => ~ derivable E (key_path data)
  | SW_BIP32_FORMATTING_FAILED => ~ path_fits 60 (key_path data) /\ ~ known_token tr (Apdu CLA INS_KEY p1 p2 data r)
  | _ => False
  end.
(** 0x11, address. *)
Definition address_error (E : env) (tr : list obs) (p1 p2 : N) (data : bytes) (r : rnd) (s : sw) : Prop :=
  match s with
  | SW_NOT_ENOUGH_DATA => too_short INS_ADDRESS p1 p2 data \/ ~ holdable (address_path data)
  | SW_TOO_MUCH_DATA => too_long INS_ADDRESS p1 p2 data
  | SW_BIP32_BAD_PATH => ~ is_address_path (address_path data)
  | SW_INTERNAL_CRYPTO_ERROR => ~ derivable E (address_path data)
  | SW_ADDRESS_GENERATION_FAILED => 252 < address_network data
  | SW_BIP32_FORMATTING_FAILED =>
      ~ path_fits 60 (address_path data) /\ ~ (p1 = 1 /\ known_token tr (Apdu CLA INS_ADDRESS p1 p2 data r))
  | _ => False
  end.
(** 0x20 with P1 = 1, attestation of a box. *)
Definition attest_start_error (p2 : N) (data : bytes) (s : sw) : Prop :=
  match s with
  | SW_WRONG_P1P2 => one_or_two p2 = false
  | SW_NOT_ENOUGH_DATA => too_short INS_ATTEST 1 p2 data
  | SW_TOO_MUCH_DATA =>
      too_long INS_ATTEST 1 p2 data \/ PART_MAX < sb_tree_len (sb_start data) \/ PART_MAX < sb_regs_len (sb_start data)
  | SW_TOO_MANY_TOKENS => TOKENS_MAX < sb_ntokens (sb_start data)
  | _ => False
  end.
(** 0x21 with P1 = 1, signing with the key of a path.  A path that is cut short has a code
    of its own here. *)
Definition sign_start_error (E : env) (p2 : N) (data : bytes) (r : rnd) (s : sw) : Prop :=
  match s with
  | SW_WRONG_P1P2 => one_or_two p2 = false
  | SW_NOT_ENOUGH_DATA => too_short INS_SIGN 1 p2 data
  | SW_BUFFER_ERROR => (length data < 2 + 4 * length (start_path data))%nat \/ ~ holdable (start_path data)
  | SW_TOO_MUCH_DATA => too_long INS_SIGN 1 p2 data
  | SW_BIP32_BAD_PATH => ~ is_address_path (start_path data)
  | SW_BAD_NET_TYPE_VALUE => start_network data <> 0 /\ start_network data <> 0x10
  | SW_INTERNAL_CRYPTO_ERROR =>
      ~ (exists secret chain, e_derive E (start_path data) = Some (secret, chain) /\ usable E secret) \/ ~ nonce_drawn E r
  | SW_BIP32_FORMATTING_FAILED => ~ path_fits 60 (start_path data)
  | _ => False
  end.

(** ** All requests *)

(** Refused before any request is looked into. *)
Definition link_error (tr : list obs) (cla ins p1 p2 : N) (s : sw) : Prop :=
  match s with
  | SW_CLA_NOT_SUPPORTED => cla <> CLA
  | SW_INS_NOT_SUPPORTED => cla = CLA /\ known_ins ins = false
  | SW_WRONG_P1P2 => cla = CLA /\ known_ins ins = true /\ params_ok ins p1 p2 = false
  | SW_BUSY => cla = CLA /\ interactive ins = true /\ params_ok ins p1 p2 = true /\ on_screen tr <> None
  | _ => False
  end.

(** The commands of a session: [opened] says which session is open, [wrong] what the code
    means for its command [sub]. *)
Definition session_error (subs : list N) (opened : N -> obs -> list obs -> Prop) (wrong : obs -> list obs -> sw -> Prop)
  (sub sid : N) (s : sw) : Prop :=
  ~ In sub subs /\ s = SW_WRONG_SUBCOMMAND \/
  In sub subs /\
  ((forall id start body, ~ opened id start body) /\ s = SW_BAD_STATE \/
   exists id start body, opened id start body /\ (sid <> id /\ s = SW_BAD_SESSION_ID \/ sid = id /\ wrong start body s)).
Definition box_commands : list N := [0x02; 0x03; 0x04; 0x05].
Definition sign_commands : list N := [0x10; 0x11; 0x12; 0x13; 0x14; 0x15; 0x16; 0x17; 0x18; 0x19; 0x1A; 0x20].

(** The code [s] in answer to a request to an idle device. *)
Definition request_error (E : env) (key : bytes) (tr : list obs) (ins p1 p2 : N) (data : bytes) (r : rnd) (s : sw) : Prop :=
  if ins =? INS_KEY then key_error E tr p1 p2 data r s
  else if ins =? INS_ADDRESS then address_error E tr p1 p2 data r s
  else if ins =? INS_ATTEST then
    if p1 =? 1 then attest_start_error p2 data s
    else session_error box_commands (fun id start body => attesting id tr start body)
           (fun start body => box_error (streamed_box start body) p1 data) p1 p2 s
  else if ins =? INS_SIGN then
    if p1 =? 1 then sign_start_error E p2 data r s
    else session_error sign_commands (fun id start body => signing id tr start body)
           (fun _ body => sign_error E key (description body) p1 data) p1 p2 s
  else False.

(** The code [s] in answer to the event [e] after the history [tr].  Scrolling fails only
    on the page of a change path whose text is too long. *)
Definition meaning (E : env) (key : bytes) (tr : list obs) (e : event) (s : sw) : Prop :=
  match e with
  | Apdu cla ins p1 p2 data r =>
      link_error tr cla ins p1 p2 s \/
      cla = CLA /\ on_screen tr = None /\ request_error E key tr ins p1 p2 data r s
  | BadApdu => s = SW_WRONG_APDU_DATA_LENGTH
  | UiReject => s = SW_DENY /\ on_screen tr <> None
  | UiApprove => s = SW_SCHNORR_SIGNING_FAILED /\ exists q f pages, on_screen tr = Some (q, U_STX_TX, f, pages)
  | UiUpper | UiLower =>
      s = SW_BIP32_FORMATTING_FAILED /\
      exists q f pages start body o p t, on_screen tr = Some (q, U_STX_OUTPUT, f, pages) /\
        session_of INS_SIGN tr = Some (start, body) /\ current_output (description body) o /\
        so_dest o = Some (SD_CHANGE p) /\ is_path_text p t /\ (70 <= length t)%nat
  | _ => False
  end.
