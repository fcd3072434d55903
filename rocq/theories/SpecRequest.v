(** The export requests and the fixed layouts of the commands, from doc/: what a request
    asks for, what its screen has to say, how long its data has to be. *)
From Coq Require Import String.
From Verif Require Import Base Env UiFlow App SpecText SpecTree SpecTx SpecTrace SpecApdu SpecScreen SpecPages.

(** 44'/429'/account'/..., every component hardened. *)
Definition is_account_path (p : list N) : Prop :=
  exists a t, p = 2 ^ 31 + 44 :: 2 ^ 31 + 429 :: a :: t /\ Forall (fun x => 2 ^ 31 <= x) (a :: t).
(** 44'/429'/account'/change/index/..., change 0 or 1, not hardened from there. *)
Definition is_address_path (p : list N) : Prop :=
  exists a c i t, p = 2 ^ 31 + 44 :: 2 ^ 31 + 429 :: a :: c :: i :: t /\ 2 ^ 31 <= a /\
    (c = 0 \/ c = 1) /\ Forall (fun x => x < 2 ^ 31) (i :: t).

(** The public key of a path and its chain code; the address of a path. *)
Definition key_at (E : env) (p : list N) (pk chain : bytes) : Prop :=
  exists secret raw, e_derive E p = Some (secret, chain) /\ e_mulG E secret = Some raw /\ pk = compressed raw.
Definition exported_key (E : env) (p : list N) (b : bytes) : Prop :=
  exists pk chain, key_at E p pk chain /\ b = pk ++ chain.
Definition address_at (E : env) (network : N) (p : list N) (b : bytes) : Prop :=
  exists pk chain, key_at E p pk chain /\ b = address E network 1 pk.

(** The request [q] behind the answer to [e]: [e] itself, or the question approved. *)
Definition behind (tr : list obs) (e : event) (k : ui_kind) (q : event) : Prop :=
  q = e \/ e = UiApprove /\ exists f, on_screen tr = Some (q, k, f, []).
(** A request answered without asking: it carries the token approved last. *)
Definition known_token (tr : list obs) (e : event) : Prop := token_of e <> 0 /\ token_of e = remembered tr.

(** Screens. *)
Definition hex_lower (n : N) : N := nth (N.to_nat n) (str "0123456789abcdef") 0.
Definition token_text (t : N) : text :=
  str "0x" ++ map (fun i => hex_lower (t / 16 ^ N.of_nat (7 - i) mod 16)) (seq 0 8).
Definition token_screen (t : N) : list screen := if t =? 0 then [] else [SC_TEXT (str "Application") (token_text t)].
Definition question_end : list screen := [SC_APPROVE; SC_REJECT; SC_LOOP; SC_END].
(** The text of a path in a buffer of [cap] characters: whole, or cut at the end. *)
Definition path_shown (cap : nat) (p : list N) (t : text) : Prop :=
  exists full, is_path_text p full /\ (t = full \/ (cap <= length full)%nat /\ t = firstn (cap - 1) full).

(** Data lengths that are fixed by the leading bytes; other commands carry a piece of a
    stream, or ignore what follows their fields. *)
Definition fixed_length (ins p1 p2 : N) (data : bytes) : option N :=
  let token := if has_token ins p1 p2 then 4 else 0 in
  if ins =? INS_KEY then Some (1 + 4 * num 0 1 data + token)
  else if ins =? INS_ADDRESS then Some (2 + 4 * num 1 1 data + token)
  else if ins =? INS_ATTEST then
    if p1 =? 1 then Some (55 + token) else if p1 =? 5 then Some 1 else None
  else if ins =? INS_SIGN then
    if p1 =? 1 then Some (2 + 4 * num 1 1 data + token)
    else if p1 =? 0x10 then Some 7 else if p1 =? 0x15 then Some 21 else if p1 =? 0x17 then Some 0 else None
  else None.
(** The commands that ignore what follows their fields. *)
Definition ignores_rest (ins p1 : N) : Prop := ins = INS_SIGN /\ In p1 [0x12; 0x18; 0x20].
