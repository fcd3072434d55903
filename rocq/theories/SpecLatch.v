(** Sequences of calls of the serializers, with whatever results they return.  Each
    constructor is one function of the C interface with its arguments. *)
From Verif Require Import Base TxTable TxBox TxInput TxFull.

(** tx_ser_box.h:83-122 (the functions that may fail, after init). *)
Inductive box_call :=
| B_TREE (chunk : bytes) | B_FEE_TREE (mainnet : bool) | B_CHANGE_TREE (raw_public_key : bytes)
| B_TOKENS (entries : bytes) (table : option (N * token_table)) | B_REGISTERS (chunk : bytes)
| B_ID (tx_id : bytes) (index : N).
(** tx_ser_input.h:71-87 *)
Inductive input_call :=
| I_TOKENS (box_id : bytes) (frame_index : N) (tokens : bytes) | I_EXTENSION (chunk : bytes).
(** tx_ser_full.h:78-154 *)
Inductive full_call :=
| F_TOKENS (ids : bytes) | F_INPUT (box_id : bytes) (frames extension_size : N) | F_INPUT_CALLBACK
| F_INPUT_TOKENS (box_id : bytes) (frame_index : N) (tokens : bytes) | F_EXTENSION (chunk : bytes)
| F_DATA_INPUTS (ids : bytes)
| F_BOX (value tree_size height tokens registers_size : N) | F_BOX_CALLBACKS
| F_TREE (chunk : bytes) | F_CHANGE_TREE (raw_public_key : bytes) | F_FEE_TREE (mainnet : bool)
| F_BOX_TOKENS (entries : bytes) | F_REGISTERS (chunk : bytes).

(** The result of each call of a sequence, and the context at the end. *)
Fixpoint calls {C S : Type} (run : C -> S -> res * S) (l : list C) (s : S) : list res * S :=
  match l with
  | [] => ([], s)
  | c :: l => let '(r, s) := run c s in let '(rs, s) := calls run l s in (r :: rs, s)
  end.

Section Runs.
  Context {A : Type}.
  Definition run_box (blake : bytes -> bytes) (cb : box_callbacks A) (c : box_call) (s : bs A) : res * bs A :=
    match c with
    | B_TREE chunk => box_add_tree cb s chunk
    | B_FEE_TREE m => box_add_miners_fee_tree cb s m
    | B_CHANGE_TREE pk => box_add_change_tree cb s pk
    | B_TOKENS l t => box_add_tokens cb s l t
    | B_REGISTERS chunk => box_add_registers cb s chunk
    | B_ID tx i => fst (box_id_hash blake s tx i)
    end.
  Definition run_input (cb : option (bytes -> token_id -> N -> A -> res * A)) (c : input_call) (s : ins A) : res * ins A :=
    match c with
    | I_TOKENS id i l => input_add_tokens cb s id i l
    | I_EXTENSION chunk => input_add_context_extension s chunk
    end.
  Definition run_full (tget : A -> token_table) (tset : token_table -> A -> A) (box_cb : box_callbacks A)
    (input_cb : bytes -> token_id -> N -> A -> res * A) (c : full_call) (s : fs A) : res * fs A :=
    match c with
    | F_TOKENS l => full_add_tokens tget tset s l
    | F_INPUT id n e => full_add_input s id n e
    | F_INPUT_CALLBACK => full_set_input_callback s
    | F_INPUT_TOKENS id i l => full_add_input_tokens tget input_cb s id i l
    | F_EXTENSION chunk => full_add_input_context_extension tget input_cb s chunk
    | F_DATA_INPUTS l => full_add_data_inputs tget s l
    | F_BOX v t h n r => full_add_box s v t h n r
    | F_BOX_CALLBACKS => full_set_box_callbacks s
    | F_TREE chunk => full_add_box_ergo_tree box_cb s chunk
    | F_CHANGE_TREE pk => full_add_box_change_tree box_cb s pk
    | F_FEE_TREE m => full_add_box_miners_fee_tree box_cb s m
    | F_BOX_TOKENS l => full_add_box_tokens tget box_cb s l
    | F_REGISTERS chunk => full_add_box_registers box_cb s chunk
    end.
End Runs.

(** A call failed.  [R_UB] is not a result: the calls were made in an order in which the C
    code reads the wrong member of a union. *)
Definition failed (r : res) : Prop := r <> R_OK /\ r <> R_MORE_DATA /\ r <> R_UB.
(** Entries of 12 bytes (index and amount), the last one cut inside its index. *)
Definition short_index (entries : bytes) : Prop := exists k n, length entries = (12 * k + n)%nat /\ (0 < n < 4)%nat.
