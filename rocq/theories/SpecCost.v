(** A signed transaction on the ledger: the boxes it spends, what returns to the wallet, and
    what was on the screen about the rest. *)
From Coq Require Import String.
From Verif Require Import Base TxTable Env UiFlow P2pkOp App SpecVlq SpecText SpecTree SpecTrace SpecTx SpecAmounts SpecScreen SpecPages SpecRequest SpecRules SpecScript SpecNode.

(** ** The ledger *)

(** A box as the ledger holds it; the hash of its bytes is its id. *)
Record n_box := mk_nb {
  nb_value : N; nb_script : bytes; nb_height : N; nb_tokens : list (bytes * N);
  nb_registers : bytes; nb_tx_id : bytes; nb_index : N }.
Definition n_box_bytes (b : n_box) : bytes :=
  vlq (nb_value b) ++ nb_script b ++ vlq (nb_height b) ++
  [blen (nb_tokens b)] ++ concat (map (fun t => fst t ++ vlq (snd t)) (nb_tokens b)) ++
  nb_registers b ++ nb_tx_id b ++ vlq (nb_index b).
(** The inputs of [t] name the boxes [bs]. *)
Definition spends (E : env) (t : n_tx) (bs : list n_box) : Prop :=
  Forall2 (fun i b => fst i = e_blake E (n_box_bytes b)) (nt_inputs t) bs.
(** The hash has no collision between a box attested in [tr] and one of [bs]. *)
Definition collision_free (E : env) (key : bytes) (tr : list obs) (bs : list n_box) : Prop :=
  forall a b, attested_box E key tr a -> In b bs -> no_collision E (box_bytes a) (n_box_bytes b).
(** Boxes with a script and registers of the node's grammar, and 32-byte token ids. *)
Definition readable_on_ledger (G : grammar) (b : n_box) : Prop :=
  g_script G (nb_script b) /\ g_registers G (nb_registers b) /\ Forall (fun t => length (fst t) = 32%nat) (nb_tokens b).

(** Tokens of an output, by id. *)
Definition held (t : n_tx) (x : n_output) : list (bytes * N) :=
  map (fun e => (nth (N.to_nat (fst e)) (nt_tokens t) [], snd e)) (no_tokens x).

(** ** What each output is *)

Inductive role := TO_WALLET (p : list N) | TO_MINERS | TO_OTHERS.
Definition to_wallet (r : role) : bool := match r with TO_WALLET _ => true | _ => false end.
Definition to_miners (r : role) : bool := match r with TO_MINERS => true | _ => false end.
Definition to_others (r : role) : bool := match r with TO_OTHERS => true | _ => false end.
(** Sum of the values of the outputs that play a role. *)
Definition paid (f : role -> bool) (roles : list role) (t : n_tx) : N :=
  total (map (fun c => no_value (snd c)) (filter (fun c => f (fst c)) (combine roles (nt_outputs t)))).

(** Every box attested in [tr] is readable, and no two of them collide. *)
Definition attested_readable (E : env) (key : bytes) (tr : list obs) (G : grammar) : Prop :=
  forall a, attested_box E key tr a -> readable_box G a /\ forall a', attested_box E key tr a' -> no_collision E (box_bytes a) (box_bytes a').

(** In [body], when [k] + 1 outputs had been opened, the device showed [pages] to confirm an
    output; then, before anything else was shown, the user approved. *)
Definition confirmed (body : list obs) (k : nat) (pages : list page) : Prop :=
  exists b1 c b2 a b3 f, body = b1 ++ c :: b2 ++ a :: b3 /\
    shown_by (snd c) = Some (U_STX_OUTPUT, f, pages) /\
    length (sx_outputs (description (b1 ++ [c]))) = S k /\
    Forall (fun x => shown_by (snd x) = None /\ is_approval x = false) b2 /\ is_approval a = true.
(** [pages] give the destination, the value and all the tokens of the output [x]. *)
Definition tells (E : env) (network : N) (t : n_tx) (x : n_output) (dest : destination) (pages : list page) : Prop :=
  exists first second tokens ids, pages = first :: second :: tokens /\
    destination_page E network dest first /\ erg_page "Output Value" (no_value x) second /\
    NoDup ids /\ (forall id, In id ids <-> amount_of id (held t x) <> 0) /\
    token_pages E (fun id title pg => exists n, is_decimal (amount_of id (held t x)) n /\ pg = Ok (title, n)) 1 ids tokens.
(** Output number [k] goes to a key of the wallet; or to the miners, without tokens or
    confirmed; or it was confirmed. *)
Definition plays (E : env) (network : N) (body : list obs) (t : n_tx) (k : nat) (x : n_output) (r : role) : Prop :=
  match r with
  | TO_WALLET p => is_address_path p /\ exists pk chain, key_at E p pk chain /\ is_p2pk_tree pk (no_script x)
  | TO_MINERS => no_script x = FEE_TREE /\
      (Forall (fun e => snd e = 0) (no_tokens x) \/ exists pages, confirmed body k pages /\ tells E network t x SD_FEE pages)
  | TO_OTHERS => exists pages, confirmed body k pages /\ tells E network t x (SD_TREE (no_script x)) pages
  end.

(** ** What the transaction costs *)

(** The transaction [t] spends [bs].  What the outputs to the wallet do not return is the
    amount plus the fee on the final screen; the fee is what the miners get; everything
    else was confirmed, and is the amount if the transaction keeps the total. *)
Record cost (E : env) (tr : list obs) (network : N) (body : list obs) (t : n_tx) (bs : list n_box) (amount fee : N) (roles : list role) : Prop := mk_cost {
  co_screen : exists q f p1 p2 p3 rest, on_screen tr = Some (q, U_STX_TX, f, p1 :: p2 :: p3 :: rest) /\
    erg_page "Transaction Amount" amount p2 /\ erg_page "Transaction Fee" fee p3;
  co_sum : total (map nb_value bs) = paid to_wallet roles t + amount + fee;
  co_fee : fee = paid to_miners roles t;
  co_others : total (map nb_value bs) = total (map no_value (nt_outputs t)) -> amount = paid to_others roles t;
  co_roles : length roles = length (nt_outputs t);
  co_outputs : forall k x r, nth_error (nt_outputs t) k = Some x -> nth_error roles k = Some r -> plays E network body t k x r }.

(** What is spent of a token, and what the outputs hold of it. *)
Definition spent (bs : list n_box) (id : bytes) : N := amount_of id (concat (map nb_tokens bs)).
Definition created (t : n_tx) (id : bytes) : N := amount_of id (concat (map (held t) (nt_outputs t))).
(** Two pages for every token of which the two differ, saying the difference.  (For a
    difference of exactly 2^63 the page is undefined, see C53.) *)
Definition difference (t : n_tx) (bs : list n_box) (id : bytes) (title : text) (pg : page) : Prop :=
  if created t id =? spent bs id + 2 ^ 63 then pg = Fail SW_UB
  else if spent bs id <? created t id then exists n, is_decimal (created t id - spent bs id) n /\ pg = Ok (title, str "Minting: " ++ n)
  else exists n, is_decimal (spent bs id - created t id) n /\ pg = Ok (title, str "Burning: " ++ n).
Definition tokens_told (E : env) (tr : list obs) (t : n_tx) (bs : list n_box) : Prop :=
  exists q f p1 p2 p3 rest ids, on_screen tr = Some (q, U_STX_TX, f, p1 :: p2 :: p3 :: rest) /\
    NoDup ids /\ (forall id, In id ids <-> spent bs id <> created t id) /\
    token_pages E (difference t bs) 1 ids rest.
