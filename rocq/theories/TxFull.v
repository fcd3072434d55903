(** src/ergo/tx_ser_full.c, tx_ser_full.h: serializer of a whole transaction.
    The token table lives in the callback context (it is a member of the amounts
    record the callbacks update), hence the accessors [tget]/[tset].  The union of
    the box and the input serializer (tx_ser_full.h:55-58) is a sum; using the arm
    which is not live is the outcome [R_UB].  The result maps of tx_ser_full.c:37-119
    are the identity because one inductive carries all result codes. *)
From Verif Require Import Base Gve TxTable TxBox TxInput.

(** tx_ser_full.h:39-46 *)
Inductive full_state :=
| FL_TOKENS_STARTED | FL_INPUTS_STARTED | FL_DATA_INPUTS_STARTED | FL_OUTPUTS_STARTED
| FL_FINISHED | FL_ERROR.

(** tx_ser_full.h:55-58.  The boolean records whether the callbacks were set after the
    member was cleared by its init function (NULL otherwise). *)
Inductive full_union :=
| FU_ZERO
| FU_INPUT (c : input_ctx) (cb_set : bool)
| FU_BOX (b : box) (cb_set : bool).

(** tx_ser_full.h:48-59 *)
Record full := mk_full {
  fl_state : full_state;
  fl_inputs_count : N;
  fl_data_inputs_count : N;
  fl_outputs_count : N;
  fl_distinct : N;
  fl_union : full_union }.

Definition full_zero : full := mk_full FL_TOKENS_STARTED 0 0 0 0 FU_ZERO.
Definition full_set_state (f : full) (s : full_state) : full :=
  mk_full s (fl_inputs_count f) (fl_data_inputs_count f) (fl_outputs_count f) (fl_distinct f) (fl_union f).
Definition full_set_union (f : full) (u : full_union) : full :=
  mk_full (fl_state f) (fl_inputs_count f) (fl_data_inputs_count f) (fl_outputs_count f) (fl_distinct f) u.
Definition full_set_inputs (f : full) (n : N) : full :=
  mk_full (fl_state f) n (fl_data_inputs_count f) (fl_outputs_count f) (fl_distinct f) (fl_union f).
Definition full_set_data (f : full) (n : N) : full :=
  mk_full (fl_state f) (fl_inputs_count f) n (fl_outputs_count f) (fl_distinct f) (fl_union f).
Definition full_set_outputs (f : full) (n : N) : full :=
  mk_full (fl_state f) (fl_inputs_count f) (fl_data_inputs_count f) n (fl_distinct f) (fl_union f).

(** Serializer context, hash stream and callback context. *)
Record fs (A : Type) := mk_fs { fs_full : full; fs_hash : bytes; fs_cb : A }.
Arguments mk_fs {A}. Arguments fs_full {A}. Arguments fs_hash {A}. Arguments fs_cb {A}.

(** The finished state the first input expects (tx_ser_full.c:193, 208). *)
Definition input_finished_ctx : input_ctx := in_set_state input_zero IN_FINISHED.

Section Full.
  Context {A : Type}.
  Variable tget : A -> token_table.
  Variable tset : token_table -> A -> A.
  Variable box_cb : box_callbacks A.
  Variable input_cb : bytes -> token_id -> N -> A -> res * A.

  Definition fs_with_full (s : fs A) (f : full) : fs A := mk_fs f (fs_hash s) (fs_cb s).
  Definition fs_with_state (s : fs A) (st : full_state) : fs A :=
    fs_with_full s (full_set_state (fs_full s) st).
  Definition fs_feed (s : fs A) (l : bytes) : fs A := mk_fs (fs_full s) (fs_hash s ++ l) (fs_cb s).

  (** tx_ser_full.c:31-35 *)
  Definition full_res_error (s : fs A) (r : res) : res * fs A := (r, fs_with_state s FL_ERROR).

  (** tx_ser_full.c:127-137 *)
  Definition data_inputs_finished (s : fs A) : res * fs A :=
    let s := fs_feed s (table_hash_bytes (fl_distinct (fs_full s)) (tget (fs_cb s))) in
    let s := fs_feed s (gve_put_u16 (fl_outputs_count (fs_full s))) in
    (R_OK, fs_with_state s FL_OUTPUTS_STARTED).

  (** tx_ser_full.c:139-152.  [inputs_count] is a uint16_t. *)
  Definition input_finished (s : fs A) : res * fs A :=
    let n := u16 (fl_inputs_count (fs_full s) + two16 - 1) in
    let s := fs_with_full s (full_set_inputs (fs_full s) n) in
    if n =? 0 then
      let s := fs_feed s (gve_put_u16 (fl_data_inputs_count (fs_full s))) in
      let s := fs_with_state s FL_DATA_INPUTS_STARTED in
      if fl_data_inputs_count (fs_full s) =? 0 then data_inputs_finished s else (R_OK, s)
    else (R_OK, s).

  (** tx_ser_full.c:154-161.  [outputs_count] is a uint16_t. *)
  Definition output_finished (s : fs A) : res * fs A :=
    let n := u16 (fl_outputs_count (fs_full s) + two16 - 1) in
    let s := fs_with_full s (full_set_outputs (fs_full s) n) in
    if n =? 0 then (R_OK, fs_with_state s FL_FINISHED) else (R_OK, s).

  (** tx_ser_full.c:163-196 *)
  Definition full_init (inputs_count data_inputs_count outputs_count tokens_count : N)
             (hash : bytes) (a : A) : res * fs A :=
    let z := mk_fs full_zero hash a in
    if inputs_count =? 0 then full_res_error z R_BAD_INPUT_COUNT
    else if outputs_count =? 0 then full_res_error z R_BAD_OUTPUT_COUNT
    else
      let h := hash ++ gve_put_u16 inputs_count in
      let f d u st := mk_full st inputs_count data_inputs_count outputs_count d u in
      match table_init tokens_count (tget a) with
      | (R_OK, t) =>
          let a := tset t a in
          if tokens_count =? 0 then
            (R_OK, mk_fs (f tokens_count (FU_INPUT input_finished_ctx false) FL_INPUTS_STARTED) h a)
          else (R_OK, mk_fs (f tokens_count FU_ZERO FL_TOKENS_STARTED) h a)
      | (r, t) => full_res_error (mk_fs (f 0 FU_ZERO FL_TOKENS_STARTED) h (tset t a)) r
      end.

  (** tx_ser_full.c:198-211 *)
  Definition full_add_tokens (s : fs A) (tokens : bytes) : res * fs A :=
    match fl_state (fs_full s) with
    | FL_TOKENS_STARTED =>
        let '(r, t) := table_add (fl_distinct (fs_full s)) tokens (tget (fs_cb s)) in
        let s := mk_fs (fs_full s) (fs_hash s) (tset t (fs_cb s)) in
        match r with
        | R_OK => (R_OK, fs_with_full s
                    (full_set_union (full_set_state (fs_full s) FL_INPUTS_STARTED)
                                    (FU_INPUT input_finished_ctx false)))
        | R_MORE_DATA => (R_MORE_DATA, s)
        | _ => full_res_error s r
        end
    | _ => full_res_error s R_BAD_STATE
    end.

  (** tx_ser_full.c:213-236 *)
  Definition full_add_input (s : fs A) (box_id : bytes) (frames_count ext_size : N) : res * fs A :=
    match fl_state (fs_full s) with
    | FL_INPUTS_STARTED =>
        match fl_union (fs_full s) with
        | FU_INPUT c _ =>
            match in_state c with
            | IN_FINISHED =>
                if fl_inputs_count (fs_full s) =? 0 then full_res_error s R_TOO_MANY_INPUTS
                else
                  let '(r, c') := input_init box_id frames_count ext_size in
                  let s := fs_with_full s (full_set_union (fs_full s) (FU_INPUT c' false)) in
                  if res_pass r then (R_OK, s) else full_res_error s r
            | _ => full_res_error s R_BAD_STATE
            end
        | _ => (R_UB, s)
        end
    | _ => full_res_error s R_BAD_STATE
    end.

  (** tx_ser_full.h:126-136 *)
  Definition full_set_input_callback (s : fs A) : res * fs A :=
    match fl_state (fs_full s) with
    | FL_INPUTS_STARTED =>
        match fl_union (fs_full s) with
        | FU_INPUT c _ => (R_OK, fs_with_full s (full_set_union (fs_full s) (FU_INPUT c true)))
        | _ => (R_UB, s)
        end
    | _ => full_res_error s R_BAD_STATE
    end.

  (** Run an input-serializer call on the union member. *)
  Definition on_input (s : fs A)
             (call : option (bytes -> token_id -> N -> A -> res * A) -> ins A -> res * ins A)
             (k : fs A -> res * fs A) : res * fs A :=
    match fl_union (fs_full s) with
    | FU_INPUT c set =>
        let '(r, i) := call (if set then Some input_cb else None)
                            (mk_ins c (fs_hash s) (fs_cb s)) in
        let s := mk_fs (full_set_union (fs_full s) (FU_INPUT (is_in i) set))
                       (is_hash i) (is_cb i) in
        match r with
        | R_OK => k s
        | R_MORE_DATA => (R_MORE_DATA, s)
        | _ => full_res_error s r
        end
    | _ => (R_UB, s)
    end.

  (** tx_ser_full.c:238-255 *)
  Definition full_add_input_tokens (s : fs A) (box_id : bytes) (frame_index : N) (tokens : bytes)
    : res * fs A :=
    match fl_state (fs_full s) with
    | FL_INPUTS_STARTED =>
        on_input s (fun cb i => input_add_tokens cb i box_id frame_index tokens)
          (fun s => match fl_union (fs_full s) with
                    | FU_INPUT c _ => match in_state c with
                                      | IN_FINISHED => input_finished s
                                      | _ => (R_OK, s)
                                      end
                    | _ => (R_UB, s)
                    end)
    | _ => full_res_error s R_BAD_STATE
    end.

  (** tx_ser_full.c:257-267 *)
  Definition full_add_input_context_extension (s : fs A) (chunk : bytes) : res * fs A :=
    match fl_state (fs_full s) with
    | FL_INPUTS_STARTED =>
        on_input s (fun _ i => input_add_context_extension i chunk) input_finished
    | _ => full_res_error s R_BAD_STATE
    end.

  (** tx_ser_full.c:273-285 *)
  Fixpoint data_inputs_loop (fuel : nat) (s : fs A) (inputs : bytes) : res * fs A :=
    match fuel with
    | O => (R_UB, s)
    | S k =>
        match inputs with
        | [] => (R_OK, s)
        | _ =>
            if fl_data_inputs_count (fs_full s) =? 0 then full_res_error s R_TOO_MANY_DATA_INPUTS
            else match read_bytes ERGO_ID_LEN inputs with
                 | None => full_res_error s R_BAD_DATA_INPUT
                 | Some (id, rest) =>
                     let s := fs_feed s id in
                     let s := fs_with_full s (full_set_data (fs_full s)
                                                (fl_data_inputs_count (fs_full s) - 1)) in
                     data_inputs_loop k s rest
                 end
        end
    end.
  (** tx_ser_full.c:269-290 *)
  Definition full_add_data_inputs (s : fs A) (inputs : bytes) : res * fs A :=
    match fl_state (fs_full s) with
    | FL_DATA_INPUTS_STARTED =>
        match data_inputs_loop (S (length inputs)) s inputs with
        | (R_OK, s') => if fl_data_inputs_count (fs_full s') =? 0 then data_inputs_finished s'
                        else (R_MORE_DATA, s')
        | (r, s') => (r, s')
        end
    | _ => full_res_error s R_BAD_STATE
    end.

  (** tx_ser_full.c:292-312: the previous box need not be finished. *)
  Definition full_add_box (s : fs A) (value tree_size height tokens_count regs_size : N)
    : res * fs A :=
    match fl_state (fs_full s) with
    | FL_OUTPUTS_STARTED =>
        if fl_outputs_count (fs_full s) =? 0 then full_res_error s R_TOO_MANY_OUTPUTS
        else
          let '(r, b) := box_init value tree_size height tokens_count regs_size
                                  (fs_hash s) (fs_cb s) in
          let s := mk_fs (full_set_union (fs_full s) (FU_BOX (bs_box b) false))
                         (bs_hash b) (bs_cb b) in
          if res_pass r then (R_OK, s) else full_res_error s r
    | _ => full_res_error s R_BAD_STATE
    end.

  (** tx_ser_full.h:138-154 *)
  Definition full_set_box_callbacks (s : fs A) : res * fs A :=
    match fl_state (fs_full s) with
    | FL_OUTPUTS_STARTED =>
        match fl_union (fs_full s) with
        | FU_BOX b _ => (R_OK, fs_with_full s (full_set_union (fs_full s) (FU_BOX b true)))
        | _ => (R_UB, s)
        end
    | _ => full_res_error s R_BAD_STATE
    end.

  Definition no_box_callbacks : box_callbacks A := mk_box_callbacks None None None.

  (** Run a box-serializer call on the union member; on R_OK call output_finished when
      the box is finished (tx_ser_full.c:319-327, 335-342, 350-357, 365-374).
      [more] says how R_MORE_DATA is passed on: the tree/token/register calls return it,
      the fee/change calls (CHECK_CALL_RESULT_OK) go on as for R_OK. *)
  Definition on_box (s : fs A) (call : box_callbacks A -> bs A -> res * bs A) (more : bool)
    : res * fs A :=
    match fl_union (fs_full s) with
    | FU_BOX b set =>
        let '(r, x) := call (if set then box_cb else no_box_callbacks)
                            (mk_bs b (fs_hash s) (fs_cb s)) in
        let s := mk_fs (full_set_union (fs_full s) (FU_BOX (bs_box x) set))
                       (bs_hash x) (bs_cb x) in
        let fin s := match bx_state (bs_box x) with
                     | BX_FINISHED => output_finished s
                     | _ => (R_OK, s)
                     end in
        match r with
        | R_OK => fin s
        | R_MORE_DATA => if more then (R_MORE_DATA, s) else fin s
        | _ => full_res_error s r
        end
    | _ => (R_UB, s)
    end.

  (** tx_ser_full.c:314-328 *)
  Definition full_add_box_ergo_tree (s : fs A) (chunk : bytes) : res * fs A :=
    match fl_state (fs_full s) with
    | FL_OUTPUTS_STARTED => on_box s (fun cb x => box_add_tree cb x chunk) true
    | _ => full_res_error s R_BAD_STATE
    end.
  (** tx_ser_full.c:330-343 *)
  Definition full_add_box_change_tree (s : fs A) (raw_pub_key : bytes) : res * fs A :=
    match fl_state (fs_full s) with
    | FL_OUTPUTS_STARTED => on_box s (fun cb x => box_add_change_tree cb x raw_pub_key) false
    | _ => full_res_error s R_BAD_STATE
    end.
  (** tx_ser_full.c:345-358 *)
  Definition full_add_box_miners_fee_tree (s : fs A) (is_mainnet : bool) : res * fs A :=
    match fl_state (fs_full s) with
    | FL_OUTPUTS_STARTED => on_box s (fun cb x => box_add_miners_fee_tree cb x is_mainnet) false
    | _ => full_res_error s R_BAD_STATE
    end.
  (** tx_ser_full.c:360-375 *)
  Definition full_add_box_tokens (s : fs A) (tokens : bytes) : res * fs A :=
    match fl_state (fs_full s) with
    | FL_OUTPUTS_STARTED =>
        on_box s (fun cb x => box_add_tokens cb x tokens
                                (Some (fl_distinct (fs_full s), tget (fs_cb s)))) true
    | _ => full_res_error s R_BAD_STATE
    end.
  (** tx_ser_full.c:377-386: output_finished is called on R_OK without looking at the
      box state; box_add_registers returns R_OK only from box_finished, which sets it. *)
  Definition full_add_box_registers (s : fs A) (chunk : bytes) : res * fs A :=
    match fl_state (fs_full s) with
    | FL_OUTPUTS_STARTED =>
        match fl_union (fs_full s) with
        | FU_BOX b set =>
            let '(r, x) := box_add_registers (if set then box_cb else no_box_callbacks)
                             (mk_bs b (fs_hash s) (fs_cb s)) chunk in
            let s := mk_fs (full_set_union (fs_full s) (FU_BOX (bs_box x) set))
                           (bs_hash x) (bs_cb x) in
            match r with
            | R_OK => output_finished s
            | R_MORE_DATA => (R_MORE_DATA, s)
            | _ => full_res_error s r
            end
        | _ => (R_UB, s)
        end
    | _ => full_res_error s R_BAD_STATE
    end.
End Full.
