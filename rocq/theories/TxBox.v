(** src/ergo/tx_ser_box.c, tx_ser_box.h: serializer of one box.
    The hash context is the list of bytes fed so far.  The three callbacks and their
    context (a state of type [A]) are parameters; [None] is a NULL callback.
    blake2b_update and the writes to the local buffers are modelled as not failing
    (the local buffers have room for the at most 10 bytes written to them). *)
From Verif Require Import Base Gve ErgoTree TxTable.

(** tx_ser_box.h:27-34 *)
Inductive box_state :=
| BX_INITIALIZED | BX_TREE_ADDED | BX_TOKENS_ADDED | BX_FINISHED
| BX_HASH_FINALIZED | BX_ERROR.
(** tx_ser_box.h:36-40 *)
Inductive box_type := BT_FEE | BT_CHANGE | BT_TREE.

(** tx_ser_box.h:59-69 (callbacks and hash pointer are kept outside). *)
Record box := mk_box {
  bx_state : box_state;
  bx_value : N;
  bx_tree_size : N;
  bx_height : N;
  bx_regs_size : N;
  bx_tokens_count : N;
  bx_type : box_type }.

Definition box_set_state (b : box) (s : box_state) : box :=
  mk_box s (bx_value b) (bx_tree_size b) (bx_height b) (bx_regs_size b) (bx_tokens_count b) (bx_type b).
Definition box_set_tree_size (b : box) (n : N) : box :=
  mk_box (bx_state b) (bx_value b) n (bx_height b) (bx_regs_size b) (bx_tokens_count b) (bx_type b).
Definition box_set_regs_size (b : box) (n : N) : box :=
  mk_box (bx_state b) (bx_value b) (bx_tree_size b) (bx_height b) n (bx_tokens_count b) (bx_type b).
Definition box_set_tokens_count (b : box) (n : N) : box :=
  mk_box (bx_state b) (bx_value b) (bx_tree_size b) (bx_height b) (bx_regs_size b) n (bx_type b).
Definition box_set_type (b : box) (t : box_type) : box :=
  mk_box (bx_state b) (bx_value b) (bx_tree_size b) (bx_height b) (bx_regs_size b) (bx_tokens_count b) t.

(** tx_ser_box.c:94: the context after memset. *)
Definition box_zero : box := mk_box BX_INITIALIZED 0 0 0 0 0 BT_FEE.

(** tx_ser_box.h:52-57 *)
Record box_callbacks (A : Type) := mk_box_callbacks {
  on_type : option (box_type -> N -> A -> res * A);
  on_token : option (box_type -> token_id -> N -> A -> res * A);
  on_finished : option (box_type -> A -> res * A) }.
Arguments on_type {A}. Arguments on_token {A}. Arguments on_finished {A}.
Arguments mk_box_callbacks {A}.

(** Box context, hash stream and callback context, threaded through each call. *)
Record bs (A : Type) := mk_bs { bs_box : box; bs_hash : bytes; bs_cb : A }.
Arguments mk_bs {A}. Arguments bs_box {A}. Arguments bs_hash {A}. Arguments bs_cb {A}.

(** R_OK or R_MORE_DATA: what CHECK_CALL_RESULT_OK (tx_ser_box.c:10-15) lets pass. *)
Definition res_pass (r : res) : bool :=
  match r with R_OK | R_MORE_DATA => true | _ => false end.

Section Box.
  Context {A : Type}.
  Variable cb : box_callbacks A.

  Definition bs_with_state (s : bs A) (st : box_state) : bs A :=
    mk_bs (box_set_state (bs_box s) st) (bs_hash s) (bs_cb s).
  Definition bs_feed (s : bs A) (l : bytes) : bs A :=
    mk_bs (bs_box s) (bs_hash s ++ l) (bs_cb s).
  Definition bs_with_box (s : bs A) (b : box) : bs A := mk_bs b (bs_hash s) (bs_cb s).
  Definition bs_with_cb (s : bs A) (a : A) : bs A := mk_bs (bs_box s) (bs_hash s) a.

  (** tx_ser_box.c:17-21 *)
  Definition box_res_error (s : bs A) (r : res) : res * bs A := (r, bs_with_state s BX_ERROR).

  (** tx_ser_box.c:23-41 *)
  Definition add_height_and_token_count (s : bs A) : bs A :=
    bs_feed s (gve_put_u32 (bx_height (bs_box s)) ++ gve_put_u8 (bx_tokens_count (bs_box s))).

  (** tx_ser_box.c:43-53 *)
  Definition add_empty_registers_count (s : bs A) : bs A := bs_feed s (gve_put_u8 0).

  (** tx_ser_box.c:55-64 *)
  Definition box_finished (s : bs A) : res * bs A :=
    match on_finished cb with
    | None => (R_OK, bs_with_state s BX_FINISHED)
    | Some f =>
        let '(r, a) := f (bx_type (bs_box s)) (bs_cb s) in
        let s := bs_with_cb s a in
        if res_pass r then (R_OK, bs_with_state s BX_FINISHED) else box_res_error s r
    end.

  (** tx_ser_box.c:73-83, the part of ergo_tree_added after the type callback. *)
  Definition ergo_tree_added_tail (s : bs A) : res * bs A :=
    let s := add_height_and_token_count s in
    if bx_tokens_count (bs_box s) =? 0 then
      let s := bs_with_state s BX_TOKENS_ADDED in
      if bx_regs_size (bs_box s) =? 0 then box_finished (add_empty_registers_count s)
      else (R_OK, s)
    else (R_OK, bs_with_state s BX_TREE_ADDED).

  (** tx_ser_box.c:66-84 *)
  Definition ergo_tree_added (s : bs A) : res * bs A :=
    match on_type cb with
    | None => ergo_tree_added_tail s
    | Some f =>
        let '(r, a) := f (bx_type (bs_box s)) (bx_value (bs_box s)) (bs_cb s) in
        let s := bs_with_cb s a in
        if res_pass r then ergo_tree_added_tail s else box_res_error s r
    end.

  (** tx_ser_box.c:86-126 *)
  Definition box_init (value tree_size height tokens_count regs_size : N)
             (hash : bytes) (a : A) : res * bs A :=
    let z := mk_bs box_zero hash a in
    if TOKEN_MAX_COUNT <? tokens_count then box_res_error z R_TOO_MANY_TOKENS
    else if MAX_TX_DATA_PART_LEN <? tree_size then box_res_error z R_TOO_MUCH_DATA
    else if MAX_TX_DATA_PART_LEN <? regs_size then box_res_error z R_TOO_MUCH_DATA
    else (R_OK, mk_bs (mk_box BX_INITIALIZED value tree_size height regs_size tokens_count BT_TREE)
                      (hash ++ gve_put_u64 value) a).

  (** tx_ser_box.c:128-151 *)
  Definition box_add_tree (s : bs A) (chunk : bytes) : res * bs A :=
    match bx_state (bs_box s) with
    | BX_INITIALIZED =>
        let len := blen chunk in
        let size := bx_tree_size (bs_box s) in
        if size <? len then box_res_error s R_TOO_MUCH_DATA
        else if (len <? size) && (len <? MAX_DATA_CHUNK_LEN) then box_res_error s R_SMALL_CHUNK
        else
          let s := bs_feed s chunk in
          let s := bs_with_box s (box_set_tree_size (bs_box s) (size - len)) in
          if size - len =? 0 then
            ergo_tree_added (bs_with_box s (box_set_type (bs_box s) BT_TREE))
          else (R_MORE_DATA, s)
    | _ => box_res_error s R_BAD_STATE
    end.

  (** tx_ser_box.c:153-165 *)
  Definition box_add_miners_fee_tree (s : bs A) (is_mainnet : bool) : res * bs A :=
    match bx_state (bs_box s) with
    | BX_INITIALIZED =>
        let s := bs_feed s (ergo_tree_miners_fee_tree is_mainnet) in
        ergo_tree_added (bs_with_box s (box_set_type (bs_box s) BT_FEE))
    | _ => box_res_error s R_BAD_STATE
    end.

  (** tx_ser_box.c:167-179 *)
  Definition box_add_change_tree (s : bs A) (raw_public_key : bytes) : res * bs A :=
    match bx_state (bs_box s) with
    | BX_INITIALIZED =>
        let s := bs_feed s (ergo_tree_generate_p2pk raw_public_key) in
        ergo_tree_added (bs_with_box s (box_set_type (bs_box s) BT_CHANGE))
    | _ => box_res_error s R_BAD_STATE
    end.

  (** tx_ser_box.c:227-248: the value part of one token: hash it, call back, count down. *)
  Definition box_token_value (s : bs A) (id : token_id) (input : bytes)
    : res * bs A * bytes :=
    match read_u64 input with
    | None => (box_res_error s R_BAD_TOKEN_VALUE, input)
    | Some (value, rest) =>
        let s := bs_feed s (gve_put_u64 value) in
        let dec s := bs_with_box s (box_set_tokens_count (bs_box s)
                                      (bx_tokens_count (bs_box s) - 1)) in
        match on_token cb with
        | None => (R_OK, dec s, rest)
        | Some f =>
            let '(r, a) := f (bx_type (bs_box s)) id value (bs_cb s) in
            let s := bs_with_cb s a in
            if res_pass r then (R_OK, dec s, rest) else (box_res_error s r, rest)
        end
    end.

  (** tx_ser_box.c:188-249: one iteration of the loop.  [table] is [None] for NULL or
      the pair (distinct_tokens_count, ids).  A short index read returns the error
      without latching it (line 209). *)
  Definition box_one_token (table : option (N * token_table)) (s : bs A) (input : bytes)
    : res * bs A * bytes :=
    if bx_tokens_count (bs_box s) =? 0 then (box_res_error s R_TOO_MANY_TOKENS, input)
    else match table with
    | None =>
        match read_bytes ERGO_ID_LEN input with
        | None => (box_res_error s R_BAD_TOKEN_ID, input)
        | Some (id, rest) => box_token_value (bs_feed s id) id rest
        end
    | Some (distinct, ids) =>
        match read_u32 input with
        | None => (R_BAD_TOKEN_INDEX, s, input)
        | Some (index, rest) =>
            if distinct <=? index then (box_res_error s R_BAD_TOKEN_INDEX, rest)
            else box_token_value (bs_feed s (gve_put_u32 index))
                                 (nth (N.to_nat index) ids zero_id) rest
        end
    end.

  (** tx_ser_box.c:188-249: the loop; every successful iteration consumes input, so
      [fuel] = input length + 1 is never exhausted. *)
  Fixpoint box_tokens_loop (fuel : nat) (table : option (N * token_table))
           (s : bs A) (input : bytes) : res * bs A :=
    match fuel with
    | O => (R_UB, s)
    | S k =>
        match input with
        | [] => (R_OK, s)
        | _ => match box_one_token table s input with
               | (R_OK, s', rest) => box_tokens_loop k table s' rest
               | (r, s', _) => (r, s')
               end
        end
    end.

  (** tx_ser_box.c:250-259: after the loop. *)
  Definition box_tokens_done (s : bs A) : res * bs A :=
    if bx_tokens_count (bs_box s) =? 0 then
      if bx_regs_size (bs_box s) =? 0 then box_finished (add_empty_registers_count s)
      else (R_OK, bs_with_state s BX_TOKENS_ADDED)
    else (R_MORE_DATA, s).

  (** tx_ser_box.c:181-260 *)
  Definition box_add_tokens (s : bs A) (input : bytes) (table : option (N * token_table))
    : res * bs A :=
    match bx_state (bs_box s) with
    | BX_TREE_ADDED =>
        match box_tokens_loop (S (length input)) table s input with
        | (R_OK, s') => box_tokens_done s'
        | (r, s') => (r, s')
        end
    | _ => box_res_error s R_BAD_STATE
    end.

  (** tx_ser_box.c:262-281 *)
  Definition box_add_registers (s : bs A) (chunk : bytes) : res * bs A :=
    match bx_state (bs_box s) with
    | BX_TOKENS_ADDED =>
        let len := blen chunk in
        let size := bx_regs_size (bs_box s) in
        if size <? len then box_res_error s R_TOO_MUCH_DATA
        else
          let s := bs_feed s chunk in
          let s := bs_with_box s (box_set_regs_size (bs_box s) (size - len)) in
          if size - len =? 0 then box_finished s else (R_MORE_DATA, s)
    | _ => box_res_error s R_BAD_STATE
    end.

  (** tx_ser_box.c:287-313.  Returns the box id. *)
  Definition box_id_hash (blake : bytes -> bytes) (s : bs A) (tx_id : bytes) (box_index : N)
    : res * bs A * bytes :=
    match bx_state (bs_box s) with
    | BX_FINISHED =>
        let s := bs_feed s (tx_id ++ gve_put_u16 box_index) in
        (R_OK, bs_with_state s BX_HASH_FINALIZED, blake (bs_hash s))
    | _ => (box_res_error s R_BAD_STATE, [])
    end.
End Box.
