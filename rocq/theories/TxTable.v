(** src/ergo/tx_ser_table.c, tx_ser_table.h: the table of token ids.
    [token_table_t] is modelled by the list of the [count] ids in use; the unused
    slots are zero (tx_ser_table.c:26, stx_amounts.h:19). *)
From Verif Require Import Base Gve.

Notation token_id := bytes (only parsing).
Definition zero_id : token_id := repeat 0 32.
Notation token_table := (list bytes) (only parsing).

(** tx_ser_table.h:32-38 (also stx_output.c:14-20) *)
Fixpoint find_index_from (i : N) (t : token_table) (id : token_id) : N :=
  match t with
  | [] => INDEX_NOT_EXIST
  | x :: t' => if bytes_eqb x id then i else find_index_from (i + 1) t' id
  end.
Definition token_table_find_token_index (t : token_table) (id : token_id) : N :=
  find_index_from 0 t id.

(** tx_ser_table.h:40-46 *)
Definition token_table_add_token (t : token_table) (id : token_id) : N * token_table :=
  if TOKEN_MAX_COUNT <=? blen t then (INDEX_NOT_EXIST, t)
  else (blen t, t ++ [id]).

(** tx_ser_table.c:4-14.  [count++] happens before the read is known to succeed, so a
    failed read leaves a (zeroed) slot in use. *)
Definition parse_token (input : bytes) (t : token_table) (tokens_max : N)
  : res * bytes * token_table :=
  if tokens_max <=? blen t then (R_TOO_MANY_TOKENS, input, t)
  else match read_bytes ERGO_ID_LEN input with
       | None => (R_BAD_TOKEN_ID, input, t ++ [zero_id])
       | Some (id, rest) => (R_OK, rest, t ++ [id])
       end.

(** tx_ser_table.c:16-31: result and the cleaned table (count is 0 already). *)
Definition table_init (tokens_count : N) (t : token_table) : res * token_table :=
  if negb (blen t =? 0) || (TOKEN_MAX_COUNT <? tokens_count) then (R_TOO_MANY_TOKENS, t)
  else (R_OK, t).

(** tx_ser_table.h:61-64 *)
Definition table_is_finished (distinct : N) (t : token_table) : bool := distinct <=? blen t.

(** tx_ser_table.c:36-42: one iteration per id; [fuel] bounds the iterations by the
    input length (each one consumes 32 bytes or stops). *)
Fixpoint table_add_loop (fuel : nat) (distinct : N) (input : bytes) (t : token_table)
  : res * token_table :=
  match fuel with
  | O => (R_UB, t)
  | S k =>
      match input with
      | [] => (R_OK, t)
      | _ => match parse_token input t distinct with
             | (R_OK, rest, t') => table_add_loop k distinct rest t'
             | (r, _, t') => (r, t')
             end
      end
  end.
(** tx_ser_table.c:33-47 *)
Definition table_add (distinct : N) (input : bytes) (t : token_table) : res * token_table :=
  match table_add_loop (S (length input)) distinct input t with
  | (R_OK, t') => (if table_is_finished distinct t' then R_OK else R_MORE_DATA, t')
  | (r, t') => (r, t')
  end.

(** tx_ser_table.c:49-65: bytes fed to the hash.  [distinct] ids are read from the
    20-slot array; slots past [count] are zero. *)
Definition table_hash_bytes (distinct : N) (t : token_table) : bytes :=
  gve_put_u32 distinct ++
  concat (map (fun i => nth i t zero_id) (seq 0 (N.to_nat distinct))).
