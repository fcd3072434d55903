(** src/commands/signtx/stx_output.c, stx_output.h: what is remembered about the
    output being streamed, for display. *)
From Verif Require Import Base TxTable TxBox ErgoTree Amounts.

(** stx_output.h:18-25 and the union 31-36: the type together with the live union
    member.  For SCRIPT the member is the running hash ([OT_SCRIPT], the bytes so far)
    until maybe_finished replaces it by the final hash ([OT_SCRIPT_DONE]). *)
Inductive out_type :=
| OT_UNKNOWN
| OT_BIP32 (path : list N)
| OT_ADDRESS (public_key : bytes)
| OT_SCRIPT (tree_so_far : bytes)
| OT_SCRIPT_DONE (tree_hash : bytes)
| OT_SCRIPT_HASH (tree_hash : bytes)
| OT_MINERS_FEE.

(** stx_output.h:27-38; the state byte is split in its three parts. *)
Record output_info := mk_oi {
  oi_value : N;
  oi_tokens : list N;
  oi_type : out_type;
  oi_tree_set : bool;
  oi_box_finished : bool }.

(** stx_output.h:46-53 *)
Definition output_info_init (value : N) : output_info :=
  mk_oi value (repeat 0 20) OT_UNKNOWN false false.

Definition oi_set_type (c : output_info) (t : out_type) : output_info :=
  mk_oi (oi_value c) (oi_tokens c) t (oi_tree_set c) (oi_box_finished c).
Definition oi_set_tree_set (c : output_info) : output_info :=
  mk_oi (oi_value c) (oi_tokens c) (oi_type c) true (oi_box_finished c).
Definition oi_set_box_finished (c : output_info) : output_info :=
  mk_oi (oi_value c) (oi_tokens c) (oi_type c) (oi_tree_set c) true.
Definition oi_set_tokens (c : output_info) (t : list N) : output_info :=
  mk_oi (oi_value c) t (oi_type c) (oi_tree_set c) (oi_box_finished c).

(** stx_output.h:83-85 *)
Definition output_info_is_finished (c : output_info) : bool :=
  oi_tree_set c && oi_box_finished c.

Section OutputInfo.
  Variable blake : bytes -> bytes.

  (** stx_output.c:22-34.  Finalizing an already finalized hash would read the wrong
      union member: [R_UB]. *)
  Definition maybe_finished (c : output_info) : res * output_info :=
    if output_info_is_finished c then
      match oi_type c with
      | OT_SCRIPT t => (R_OK, oi_set_type c (OT_SCRIPT_DONE (blake t)))
      | OT_SCRIPT_DONE _ => (R_UB, c)
      | _ => (R_OK, c)
      end
    else (R_OK, c).

  Definition maybe_finished_sw (c : output_info) : sw * output_info :=
    let '(r, c) := maybe_finished c in (sw_of_res r, c).

  (** stx_output.c:36-47 *)
  Definition output_info_set_bip32 (c : output_info) (path : list N) : sw * output_info :=
    match oi_type c with
    | OT_UNKNOWN => maybe_finished_sw (oi_set_tree_set (oi_set_type c (OT_BIP32 path)))
    | _ => (SW_BAD_STATE, c)
    end.

  (** stx_output.c:49-56 *)
  Definition output_info_set_fee (c : output_info) : sw * output_info :=
    match oi_type c with
    | OT_UNKNOWN => maybe_finished_sw (oi_set_tree_set (oi_set_type c OT_MINERS_FEE))
    | _ => (SW_BAD_STATE, c)
    end.

  (** stx_output.c:69-84: classification of the first chunk. *)
  Definition classify_first_chunk (c : output_info) (chunk : bytes) (is_finished : bool)
    : output_info :=
    let script := oi_set_type c (OT_SCRIPT []) in
    let sh :=
      if Nat.eqb (length chunk) ERGO_TREE_P2SH_LEN && is_finished then
        match ergo_tree_parse_p2sh chunk with
        | Some h => oi_set_tree_set (oi_set_type c (OT_SCRIPT_HASH h))
        | None => script
        end
      else script in
    if Nat.eqb (length chunk) ERGO_TREE_P2PK_LEN && is_finished then
      match ergo_tree_parse_p2pk chunk with
      | Some pk => oi_set_tree_set (oi_set_type c (OT_ADDRESS pk))
      | None => sh
      end
    else sh.

  (** stx_output.c:58-94 *)
  Definition output_info_add_tree_chunk (c : output_info) (chunk : bytes) (is_finished : bool)
    : sw * output_info :=
    let go c :=
      let c := match oi_type c with OT_UNKNOWN => classify_first_chunk c chunk is_finished
                                  | _ => c end in
      let c := match oi_type c with
               | OT_SCRIPT t =>
                   let c := oi_set_type c (OT_SCRIPT (t ++ chunk)) in
                   if is_finished then oi_set_tree_set c else c
               | _ => c
               end in
      maybe_finished_sw c in
    match oi_type c with
    | OT_UNKNOWN | OT_SCRIPT _ => if oi_tree_set c then (SW_BAD_STATE, c) else go c
    | OT_SCRIPT_DONE _ => if oi_tree_set c then (SW_BAD_STATE, c) else (SW_UB, c)
    | _ => (SW_BAD_STATE, c)
    end.

  (** stx_output.c:96-108; [table] is the amounts' token table. *)
  Definition output_info_add_token (c : output_info) (table : token_table)
             (tn_id : token_id) (value : N) : res * output_info :=
    let index := token_table_find_token_index table tn_id in
    if index =? INDEX_NOT_EXIST then (R_BAD_TOKEN_ID, c)
    else match nth_error (oi_tokens c) (N.to_nat index) with
         | None => (R_UB, c)
         | Some v => if negb (v =? 0) then (R_BAD_TOKEN_VALUE, c)
                     else (R_OK, oi_set_tokens c (set_nth (N.to_nat index) value (oi_tokens c)))
         end.

  (** stx_output.c:110-114 *)
  Definition output_info_set_box_finished (c : output_info) : res * output_info :=
    maybe_finished (oi_set_box_finished c).
End OutputInfo.

(** stx_output.c:116-122 *)
Definition output_info_used_tokens_count (c : output_info) : N :=
  blen (filter (fun v => 0 <? v) (oi_tokens c)).
(** stx_output.c:124-131 *)
Definition output_info_used_token_index (c : output_info) (k : N) : N :=
  nth_index (fun v => 0 <? v) 0 k (oi_tokens c).
