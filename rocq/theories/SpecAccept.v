(** When the device accepts a command of an open signing session: conditions on the
    transaction described so far and on the data of the command, from
    doc/INS-21-SIGN-TRANSACTION.md, with the limits of the device. *)
From Verif Require Import Base Env UiFlow App SpecTree SpecTrace SpecTx SpecAmounts SpecApdu SpecScreen SpecRequest SpecSign SpecRules.

(** An attestation start refused for its second parameter drops the session, too, though
    other commands with wrong parameters do not. *)
Definition malformed_start (o : obs) : Prop :=
  exists cla p2 data r, o = (Apdu cla INS_ATTEST 1 p2 data r, [OResp [] SW_WRONG_P1P2]) /\ 2 < p2.
(** A signing session that is open, was approved and has not ended with a signature. *)
Definition signing (sid : N) (tr : list obs) (start : obs) (body : list obs) : Prop :=
  open_session INS_SIGN sid tr start body /\ Forall (fun o => signature o = None /\ ~ malformed_start o) body.

(** The data consist of entries of [n] bytes. *)
Definition entries_of (n : nat) (data : bytes) : Prop := (length data mod n = 0)%nat.
(** The tokens of the inputs that were not declared. *)
Definition undeclared (d : s_tx) : list bytes :=
  filter (fun id => negb (existsb (bytes_eqb id) (sx_tokens d))) (distinct_ids (map fst (input_tokens d))).
(** Stages of the transaction [d] with header [h]. *)
Definition tokens_done (d : s_tx) (h : s_head) : Prop := blen (sx_tokens d) = sh_tokens h.
Definition inputs_done (d : s_tx) (h : s_head) : Prop :=
  blen (sx_inputs d) = sh_inputs h /\ Forall (fun i => input_complete i = true) (sx_inputs d).
Definition data_done (d : s_tx) (h : s_head) : Prop := blen (sx_data d) = sh_data h.
Definition outputs_done (d : s_tx) (h : s_head) : Prop := count_complete output_complete (sx_outputs d) = sh_outputs h.
(** The last input, the last output. *)
Definition current_input (d : s_tx) (i : s_input) : Prop := exists pre, sx_inputs d = pre ++ [i].
Definition current_output (d : s_tx) (o : s_output) : Prop := exists pre, sx_outputs d = pre ++ [o].
(** The part of a script received so far. *)
Definition script_so_far (o : s_output) : bytes := match so_dest o with Some (SD_TREE t) => t | _ => [] end.
(** Largest script, register block and context extension; tokens of a transaction. *)
Definition PART_MAX : N := 32768.
Definition TOKENS_MAX : N := 20.

(** ** The conditions, command by command *)

(** 0x10, header: the first command; at least one input and one output, at most 20 tokens. *)
Definition header_ok (d : s_tx) (data : bytes) : Prop :=
  sx_head d = None /\ length data = 7%nat /\ 0 < num 0 2 data /\ num 4 1 data <= TOKENS_MAX /\ 0 < num 5 2 data.
(** 0x11, distinct tokens. *)
Definition tokens_ok (d : s_tx) (h : s_head) (data : bytes) : Prop :=
  ~ tokens_done d h /\ entries_of 32 data /\ blen (sx_tokens d ++ entries 32 data) <= sh_tokens h.
(** 0x12, input frame; [d'] is the transaction with it. *)
Definition frame_ok (E : env) (key : bytes) (d : s_tx) (h : s_head) (data : bytes) (d' : s_tx) : Prop :=
  tokens_done d h /\ attested_data E key data /\ frame_in_order (sx_inputs d) data /\
  blen (sx_inputs d') <= sh_inputs h /\
  (num 33 1 data = 0 ->
     let off := (43 + 40 * frame_ntokens data + 16)%nat in
     (off + 4 <= length data)%nat /\ num off 4 data <> 1 /\ num off 4 data <= PART_MAX) /\
  in_range d' /\ blen (sx_tokens d') + blen (undeclared d') <= TOKENS_MAX.
(** 0x13, context extension. *)
Definition extension_ok (d : s_tx) (data : bytes) : Prop :=
  exists i, current_input d i /\ blen (si_frames i) = si_count i /\ blen (si_ext i) < si_ext_len i /\
    blen (si_ext i ++ data) <= si_ext_len i.
(** 0x14, data inputs. *)
Definition data_ok (d : s_tx) (h : s_head) (data : bytes) : Prop :=
  inputs_done d h /\ ~ data_done d h /\ entries_of 32 data /\ blen (sx_data d ++ entries 32 data) <= sh_data h.
(** 0x15, new output; the one before need not be complete. *)
Definition output_ok (d : s_tx) (h : s_head) (data : bytes) : Prop :=
  inputs_done d h /\ data_done d h /\ ~ outputs_done d h /\ length data = 21%nat /\
  num 8 4 data <= PART_MAX /\ num 16 1 data <= TOKENS_MAX /\ num 17 4 data <= PART_MAX.
(** 0x16, script chunk: only the last one may have less than 255 bytes. *)
Definition script_ok (d : s_tx) (data : bytes) : Prop :=
  exists o, current_output d o /\ tree_complete o = false /\
    blen (script_so_far o ++ data) <= so_tree_len o /\
    (blen (script_so_far o ++ data) = so_tree_len o \/ length data = 255%nat).
(** 0x17, miners' fee; 0x18, change. *)
Definition fee_ok (d : s_tx) (data : bytes) (d' : s_tx) : Prop :=
  data = [] /\ (exists o, current_output d o /\ so_dest o = None) /\ fees d' + change d' <= total_in d'.
Definition change_to_ok (E : env) (d : s_tx) (data : bytes) (d' : s_tx) : Prop :=
  (exists o, current_output d o /\ so_dest o = None) /\ fees d' + change d' <= total_in d' /\
  (1 <= length data)%nat /\ (1 + 4 * length (path_at 0 data) <= length data)%nat /\ (length (path_at 0 data) <= 10)%nat /\
  is_address_path (path_at 0 data) /\ exists pk chain, key_at E (path_at 0 data) pk chain.
(** 0x19, tokens of the output. *)
Definition output_tokens_ok (d : s_tx) (h : s_head) (data : bytes) (d' : s_tx) : Prop :=
  (exists o, current_output d o /\ tree_complete o = true /\ blen (so_tokens o) < so_ntokens o) /\ entries_of 12 data /\
  Forall (fun e => num 0 4 e < sh_tokens h) (entries 12 data) /\
  (exists o', current_output d' o' /\ blen (so_tokens o') <= so_ntokens o' /\ no_repeat (tokens_of d' o')) /\ in_range d'.
(** 0x1A, registers of the output. *)
Definition registers_ok (d : s_tx) (data : bytes) : Prop :=
  exists o, current_output d o /\ tree_complete o = true /\ blen (so_tokens o) = so_ntokens o /\
    blen (so_regs o) < so_regs_len o /\ blen (so_regs o ++ data) <= so_regs_len o.

(** The command [sub] with these data may follow when [d] was described. *)
Definition admissible (E : env) (key : bytes) (d : s_tx) (sub : N) (data : bytes) : Prop :=
  let d' := describe_cmd d sub data in
  sub = 0x10 /\ header_ok d data \/
  exists h, sx_head d = Some h /\
    match sub with
    | 0x11 => tokens_ok d h data
    | 0x12 => frame_ok E key d h data d'
    | 0x13 => extension_ok d data
    | 0x14 => data_ok d h data
    | 0x15 => output_ok d h data
    | 0x16 => script_ok d data
    | 0x17 => fee_ok d data d'
    | 0x18 => change_to_ok E d data d'
    | 0x19 => output_tokens_ok d h data d'
    | 0x1A => registers_ok d data
    | 0x20 => outputs_done d h
    | _ => False
    end.
