(** What the pages of the signing screens are supposed to say about the transaction. *)
From Coq Require Import String.
From Verif Require Import Base TxTable Env UiFlow P2pkOp App SpecText SpecTree SpecTx SpecAmounts.

(** An Ergo address: network and type in the first byte, content, four checksum bytes. *)
Definition address (E : env) (network type : N) (content : bytes) : bytes :=
  let body := (network + type) :: content in body ++ firstn 4 (e_blake E body).

(** The page of a path.  A text of 70 characters or more does not fit: it is cut to 69, or
    the page is refused. *)
Definition path_page (title : string) (p : list N) (pg : page) : Prop :=
  exists full, is_path_text p full /\
    ((length full < 70)%nat /\ pg = Ok (str title, full) \/
     (70 <= length full)%nat /\
       (pg = Ok (str title, firstn 69 full) \/ pg = Fail SW_BIP32_FORMATTING_FAILED)).

Definition erg_page (title : string) (nano : N) (pg : page) : Prop :=
  exists t, is_erg_text nano t /\ pg = Ok (str title, t).

(** The page saying where an output goes.  A script that is neither a public key nor a
    script hash is shown as the P2SH address of its hash. *)
Definition address_page (E : env) (title : string) (network type : N) (content : bytes) (pg : page) : Prop :=
  exists t, is_base58 (address E network type content) t /\ pg = Ok (str title, t).
Definition destination_page (E : env) (network : N) (dest : destination) (pg : page) : Prop :=
  match dest with
  | SD_FEE => pg = Ok (str "Fee", str "Miners Fee")
  | SD_CHANGE p => path_page "Change" p pg
  | SD_TREE t =>
      (exists pk, is_p2pk_tree pk t /\ address_page E "Address" network 1 pk pg) \/
      (exists h, is_p2sh_tree h t /\ address_page E "Script Hash" network 2 h pg) \/
      ((forall pk, ~ is_p2pk_tree pk t) /\ (forall h, ~ is_p2sh_tree h t) /\
       address_page E "Script Hash" network 2 (firstn 24 (e_blake E t)) pg)
  end.

(** Token ids are abbreviated on screen. *)
Definition id_text (E : env) (id : bytes) : text :=
  firstn (e_id_keep E) (hex_text id) ++ str "..." ++ skipn (64 - e_id_keep E) (hex_text id).
Definition numbered (k : N) (suffix : string) (t : text) : Prop :=
  exists n, is_decimal k n /\ t = str "Token [" ++ n ++ str suffix.
(** Two pages for each token of a list, numbered from [k]; [value] says what the second
    one is, given its title. *)
Inductive token_pages (E : env) (value : bytes -> text -> page -> Prop) : N -> list bytes -> list page -> Prop :=
| token_pages_nil : forall k, token_pages E value k [] []
| token_pages_cons : forall k id ids t1 t2 pg pages,
    numbered k "]" t1 -> numbered k "] Value" t2 -> value id t2 pg ->
    token_pages E value (k + 1) ids pages ->
    token_pages E value k (id :: ids) (Ok (t1, id_text E id) :: pg :: pages).

(** The pages of an output: its destination, its value and its tokens; for a change output
    only the path. *)
Definition output_token (d : s_tx) (o : s_output) (id : bytes) (title : text) (pg : page) : Prop :=
  exists n, is_decimal (amount_of id (tokens_of d o)) n /\ pg = Ok (title, n).
Definition tokens_held (d : s_tx) (o : s_output) : list bytes :=
  filter (fun id => negb (amount_of id (tokens_of d o) =? 0)) (token_ids d).
Definition output_pages (E : env) (network : N) (d : s_tx) (o : s_output) (pages : list page) : Prop :=
  exists dest first rest, so_dest o = Some dest /\ pages = first :: rest /\
    destination_page E network dest first /\
    match dest with
    | SD_CHANGE _ => rest = []
    | _ => exists second tokens, rest = second :: tokens /\ erg_page "Output Value" (so_value o) second /\
             token_pages E (output_token d o) 1 (tokens_held d o) tokens
    end.

(** The pages of the final confirmation: the path, the amount leaving, the fee, and what is
    minted or burned.  The page of a token with a deficit of exactly 2^63 negates the least
    64-bit integer, which is undefined. *)
Definition imbalance (d : s_tx) (id : bytes) (title : text) (pg : page) : Prop :=
  if (balance d id =? - 2 ^ 63)%Z then pg = Fail SW_UB
  else exists n, is_decimal (Z.abs_N (balance d id)) n /\
         pg = Ok (title, str (if (balance d id <? 0)%Z then "Minting: " else "Burning: ") ++ n).
Definition unbalanced (d : s_tx) : list bytes :=
  filter (fun id => negb (balance d id =? 0)%Z) (token_ids d).
Definition confirm_pages (E : env) (path : list N) (d : s_tx) (pages : list page) : Prop :=
  exists first second third tokens, pages = first :: second :: third :: tokens /\
    path_page "P2PK Path" path first /\
    erg_page "Transaction Amount" (total_in d - fees d - change d) second /\
    erg_page "Transaction Fee" (fees d) third /\
    token_pages E (imbalance d) 1 (unbalanced d) tokens.
