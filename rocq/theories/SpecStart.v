(** When the device accepts a request that opens an exchange: the export of a key, of an
    address, the start of an attestation and of a signing session.  From doc/INS-10 to
    doc/INS-21, with the limits of the device. *)
From Verif Require Import Base Env UiFlow App SpecText SpecTrace SpecTx SpecApdu SpecScreen SpecRequest SpecSign SpecAccept.

(** The data have the length their leading bytes call for. *)
Definition whole_data (ins p1 p2 : N) (data : bytes) : Prop := fixed_length ins p1 p2 data = Some (blen data).
(** A path of at most ten components whose text fits a screen of [cap - 1] characters; of
    a text that is too long the last component may be cut, but it has to begin and must
    not be hardened. *)
Definition path_fits (cap : nat) (p : list N) : Prop :=
  exists full, is_path_text p full /\
    ((length full < cap)%nat \/
     last p 0 < 2 ^ 31 /\ exists pre c, full = pre ++ c /\ component_text (last p 0) c /\ (length pre + 1 < cap)%nat).
(** The device derives a key for the path. *)
Definition derivable (E : env) (p : list N) : Prop := exists pk chain, key_at E p pk chain.
(** A scalar the signature can use. *)
Definition usable (E : env) (k : bytes) : Prop := 0 < be_value k <= GROUP_ORDER /\ exists w, e_mulG E k = Some w.
(** The random source yields a session id; one of its first hundred nonces is usable. *)
Definition id_drawn (r : rnd) : Prop := exists i, In i (r_ids r) /\ i <> 0.
Definition nonce_drawn (E : env) (r : rnd) : Prop := exists k, In k (firstn 100 (r_nonces r)) /\ usable E k.

(** 0x10, extended public key. *)
Definition key_request_ok (E : env) (tr : list obs) (p1 p2 : N) (data : bytes) (r : rnd) : Prop :=
  one_or_two p1 = true /\ p2 = 0 /\ whole_data INS_KEY p1 p2 data /\
  is_account_path (key_path data) /\ (length (key_path data) <= 10)%nat /\ derivable E (key_path data) /\
  (known_token tr (Apdu CLA INS_KEY p1 p2 data r) \/ path_fits 60 (key_path data)).
(** 0x11, address: returned (P1 = 1) or displayed (P1 = 2). *)
Definition address_request_ok (E : env) (tr : list obs) (p1 p2 : N) (data : bytes) (r : rnd) : Prop :=
  one_or_two p1 = true /\ one_or_two p2 = true /\ whole_data INS_ADDRESS p1 p2 data /\
  address_network data <= 252 /\
  is_address_path (address_path data) /\ (length (address_path data) <= 10)%nat /\ derivable E (address_path data) /\
  (p1 = 1 /\ known_token tr (Apdu CLA INS_ADDRESS p1 p2 data r) \/ path_fits 60 (address_path data)).
(** 0x20 with P1 = 1, attestation of a box. *)
Definition attest_request_ok (p2 : N) (data : bytes) (r : rnd) : Prop :=
  one_or_two p2 = true /\ whole_data INS_ATTEST 1 p2 data /\
  sb_ntokens (sb_start data) <= TOKENS_MAX /\ sb_tree_len (sb_start data) <= PART_MAX /\ sb_regs_len (sb_start data) <= PART_MAX /\
  id_drawn r.
(** 0x21 with P1 = 1, signing with the key of a path. *)
Definition sign_request_ok (E : env) (p2 : N) (data : bytes) (r : rnd) : Prop :=
  one_or_two p2 = true /\ whole_data INS_SIGN 1 p2 data /\
  (start_network data = 0 \/ start_network data = 0x10) /\
  is_address_path (start_path data) /\ (length (start_path data) <= 10)%nat /\
  (exists secret chain, e_derive E (start_path data) = Some (secret, chain) /\ usable E secret) /\
  nonce_drawn E r /\ path_fits 60 (start_path data) /\ id_drawn r.
