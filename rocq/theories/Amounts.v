(** src/commands/signtx/stx_amounts.c, stx_amounts.h: running totals. *)
From Verif Require Import Base SafeInt TxTable TxBox.

(** stx_amounts.h:11-16; [am_tokens] is the 20-slot array of int64_t. *)
Record amounts := mk_amounts {
  am_fee : N;
  am_value : N;
  am_tokens : list Z;
  am_table : token_table }.

(** stx_amounts.h:18-20 *)
Definition amounts_init : amounts := mk_amounts 0 0 (repeat 0%Z 20) [].

Definition am_set_tokens (c : amounts) (t : list Z) : amounts :=
  mk_amounts (am_fee c) (am_value c) t (am_table c).
Definition am_set_table (t : token_table) (c : amounts) : amounts :=
  mk_amounts (am_fee c) (am_value c) (am_tokens c) t.
Definition am_set_value (c : amounts) (v : N) : amounts :=
  mk_amounts (am_fee c) v (am_tokens c) (am_table c).
Definition am_set_fee (c : amounts) (v : N) : amounts :=
  mk_amounts v (am_value c) (am_tokens c) (am_table c).

(** stx_amounts.h:22-25 *)
Definition amounts_add_input (c : amounts) (value : N) : sw * amounts :=
  match checked_add_u64 (am_value c) value with
  | ChkOk v => (SW_OK, am_set_value c v)
  | ChkFail => (SW_U64_OVERFLOW, c)
  | ChkUB => (SW_UB, c)
  end.

(** Access to tokens[index]: [None] when out of the array bounds. *)
Definition tok_get (l : list Z) (index : N) : option Z := nth_error l (N.to_nat index).

(** stx_amounts.c:4-22 *)
Definition amounts_add_input_token (c : amounts) (tn_id : token_id) (value : N) : res * amounts :=
  let index := token_table_find_token_index (am_table c) tn_id in
  let '(index, c) :=
    if index =? INDEX_NOT_EXIST then
      let '(i, t) := token_table_add_token (am_table c) tn_id in
      if i =? INDEX_NOT_EXIST then (i, c)
      else (i, am_set_tokens (am_set_table t c) (set_nth (N.to_nat i) 0%Z (am_tokens c)))
    else (index, c) in
  if index =? INDEX_NOT_EXIST then (R_TOO_MANY_TOKENS, c)
  else match tok_get (am_tokens c) index with
       | None => (R_UB, c)
       | Some v =>
           match checked_add_i64 v value with
           | ChkOk v' => (R_OK, am_set_tokens c (set_nth (N.to_nat index) v' (am_tokens c)))
           | ChkFail => (R_U64_OVERFLOW, c)
           | ChkUB => (R_UB, c)
           end
       end.

(** stx_amounts.c:24-47 *)
Definition amounts_add_output (c : amounts) (type : box_type) (value : N) : res * amounts :=
  match type with
  | BT_CHANGE =>
      match checked_sub_u64 (am_value c) value with
      | ChkOk v => (R_OK, am_set_value c v)
      | ChkFail => (R_U64_OVERFLOW, c)
      | ChkUB => (R_UB, c)
      end
  | BT_FEE =>
      match checked_sub_u64 (am_value c) value with
      | ChkOk v =>
          let c := am_set_value c v in
          match checked_add_u64 (am_fee c) value with
          | ChkOk f => (R_OK, am_set_fee c f)
          | ChkFail => (R_U64_OVERFLOW, c)
          | ChkUB => (R_UB, c)
          end
      | ChkFail => (R_U64_OVERFLOW, c)
      | ChkUB => (R_UB, c)
      end
  | BT_TREE => (R_OK, c)
  end.

(** stx_amounts.c:49-64 *)
Definition amounts_add_output_token (c : amounts) (id : token_id) (value : N) : res * amounts :=
  let index := token_table_find_token_index (am_table c) id in
  if index =? INDEX_NOT_EXIST then (R_BAD_TOKEN_ID, c)
  else match tok_get (am_tokens c) index with
       | None => (R_UB, c)
       | Some v =>
           match checked_sub_i64 v value with
           | ChkOk v' => (R_OK, am_set_tokens c (set_nth (N.to_nat index) v' (am_tokens c)))
           | ChkFail => (R_U64_OVERFLOW, c)
           | ChkUB => (R_UB, c)
           end
       end.

(** stx_amounts.c:66-72 *)
Definition amounts_non_zero_tokens_count (c : amounts) : N :=
  blen (filter (fun z => negb (z =? 0)%Z) (am_tokens c)).

(** The loop shared by stx_amounts.c:76-80 and stx_output.c:126-130: index of the
    [k]-th element that satisfies [p]. *)
Fixpoint nth_index {A} (p : A -> bool) (i k : N) (l : list A) : N :=
  match l with
  | [] => INDEX_NOT_EXIST
  | x :: t => if p x then (if k =? 0 then i else nth_index p (i + 1) (k - 1) t)
              else nth_index p (i + 1) k t
  end.
(** stx_amounts.c:74-81 *)
Definition amounts_non_zero_token_index (c : amounts) (k : N) : N :=
  nth_index (fun z => negb (z =? 0)%Z) 0 k (am_tokens c).
