(** C07-C09, C49, C50: paths, addresses, ids and amounts as texts. *)
From Coq Require Import String.
From Verif Require Import Lib Bip32 Base58 Format SpecText TextProofs Base58Proofs.
Local Open Scope list_scope.

(** C07.  44'/429' and at least one more component. *)
Theorem C07_coin : forall p, ergo_path_validate p V_COIN = true <->
  exists x t, p = 2 ^ 31 + 44 :: 2 ^ 31 + 429 :: x :: t.
Proof. exact validate_coin. Qed.
Print Assumptions C07_coin.
Theorem C07_account_ge3 : forall p, ergo_path_validate p V_ACCOUNT_GE3 = true <->
  exists x t, p = 2 ^ 31 + 44 :: 2 ^ 31 + 429 :: x :: t /\ Forall (fun x => 2 ^ 31 <= x) (x :: t).
Proof. exact (fun p => validate_hard p V_ACCOUNT_GE3 (or_intror eq_refl)). Qed.
Print Assumptions C07_account_ge3.
Theorem C07_coin_ge2_hard : forall p, ergo_path_validate p V_COIN_GE2_HARD = true <->
  exists x t, p = 2 ^ 31 + 44 :: 2 ^ 31 + 429 :: x :: t /\ Forall (fun x => 2 ^ 31 <= x) (x :: t).
Proof. exact (fun p => validate_hard p V_COIN_GE2_HARD (or_introl eq_refl)). Qed.
Print Assumptions C07_coin_ge2_hard.
Theorem C07_account_e3 : forall p, ergo_path_validate p V_ACCOUNT_E3 = true <->
  exists a, p = [2 ^ 31 + 44; 2 ^ 31 + 429; a] /\ 2 ^ 31 <= a.
Proof. exact validate_account_e3. Qed.
Print Assumptions C07_account_e3.
Theorem C07_address_e5 : forall p, ergo_path_validate p V_ADDRESS_E5 = true <->
  exists a c i, p = [2 ^ 31 + 44; 2 ^ 31 + 429; a; c; i] /\ 2 ^ 31 <= a /\ (c = 0 \/ c = 1) /\ i < 2 ^ 31.
Proof. exact validate_address_e5. Qed.
Print Assumptions C07_address_e5.
Theorem C07_address_ge5 : forall p, ergo_path_validate p V_ADDRESS_GE5 = true <->
  exists a c i t, p = 2 ^ 31 + 44 :: 2 ^ 31 + 429 :: a :: c :: i :: t /\ 2 ^ 31 <= a /\
    (c = 0 \/ c = 1) /\ Forall (fun x => x < 2 ^ 31) (i :: t).
Proof. exact validate_address_ge5. Qed.
Print Assumptions C07_address_ge5.
(** The documented two-component path is refused by the "at least two" mode. *)
Theorem C07_ge2_refuted : ergo_path_validate [2 ^ 31 + 44; 2 ^ 31 + 429] V_COIN_GE2_HARD = false.
Proof. exact eq_refl. Qed.
Print Assumptions C07_ge2_refuted.
Example C07_ex :
  ergo_path_validate [2 ^ 31 + 44; 2 ^ 31 + 429; 2 ^ 31 + 3; 1; 7] V_ADDRESS_E5 = true /\
  ergo_path_validate [2 ^ 31 + 44; 2 ^ 31 + 429; 2 ^ 31 + 3; 2; 7] V_ADDRESS_E5 = false /\
  ergo_path_validate [2 ^ 31 + 44; 2 ^ 31 + 429; 3; 1; 7] V_ADDRESS_GE5 = false /\
  ergo_path_validate [2 ^ 31 + 44; 2 ^ 31 + 429; 2 ^ 31] V_ACCOUNT_GE3 = true.
Proof. repeat split. Qed.

(** C08.  [cap] is the size of the text buffer.  A text which does fit is shown in full;
    whatever is shown fits and is either the full text or, filling the buffer exactly,
    the full text cut inside its last (non-hardened) component. *)
Theorem C08_text : forall cap p, (1 <= length p <= 10)%nat -> Forall (fun x => x < 2 ^ 32) p ->
  exists full, is_path_text p full /\
    ((length full < cap)%nat -> bip32_path_format cap p = Some full) /\
    (forall t, bip32_path_format cap p = Some t -> (length t < cap)%nat /\
       (t = full \/ (length t = cap - 1)%nat /\ t = firstn (length t) full /\ last p 0 < 2 ^ 31)).
Proof. exact path_format_complete. Qed.
Print Assumptions C08_text.
(** A text not filling the buffer, or of paths with a hardened last component (every
    extended-key export), determines the path. *)
Theorem C08_unique : forall cap p q t,
  Forall (fun x => x < 2 ^ 32) p -> Forall (fun x => x < 2 ^ 32) q ->
  bip32_path_format cap p = Some t -> bip32_path_format cap q = Some t ->
  ((length t < cap - 1)%nat \/ 2 ^ 31 <= last p 0 /\ 2 ^ 31 <= last q 0) -> p = q.
Proof. exact path_format_inj. Qed.
Print Assumptions C08_unique.
(** An address path of at most seven components is always shown in full by the
    application's buffers (60 and 70 bytes). *)
Theorem C08_address_paths : forall p, ergo_path_validate p V_ADDRESS_GE5 = true -> (length p <= 7)%nat ->
  Forall (fun x => x < 2 ^ 32) p ->
  exists t, is_path_text p t /\ forall cap, (60 <= cap)%nat -> bip32_path_format cap p = Some t.
Proof. exact ge5_path_shown. Qed.
Print Assumptions C08_address_paths.
(** Texts themselves identify paths. *)
Theorem C08_text_injective : forall p q t, is_path_text p t -> is_path_text q t ->
  Forall (fun x => x < 2 ^ 32) p -> Forall (fun x => x < 2 ^ 32) q -> p = q.
Proof. exact (fun p q t Hp Hq => is_path_text_inj p t Hp q Hq). Qed.
Print Assumptions C08_text_injective.
(** The unrestricted claim is false: two acceptable eight-component address paths share
    their text in the 60-byte buffer of the path screen. *)
Theorem C08_unique_refuted : exists p q t,
  ergo_path_validate p V_ADDRESS_GE5 = true /\ ergo_path_validate q V_ADDRESS_GE5 = true /\
  bip32_path_format 60 p = Some t /\ bip32_path_format 60 q = Some t /\ p <> q.
Proof. exact path_text_clash. Qed.
Print Assumptions C08_unique_refuted.
Example C08_ex : bip32_path_format 60 [2 ^ 31 + 44; 2 ^ 31 + 429; 2 ^ 31; 0; 12] = Some (str "44'/429'/0'/0/12").
Proof. reflexivity. Qed.

(** C09. *)
Theorem C09_base58 : forall input out_len, bytes_ok input = true -> blen input <= 120 ->
  exists t, is_base58 input t /\
    base58_encode input out_len = (if Nat.ltb out_len (length t) then None else Some t).
Proof. exact base58_exact. Qed.
Print Assumptions C09_base58.
Theorem C09_decodable : forall a b t, bytes_ok a = true -> bytes_ok b = true ->
  is_base58 a t -> is_base58 b t -> a = b.
Proof. exact is_base58_inj. Qed.
Print Assumptions C09_decodable.
Theorem C09_injective : forall a b n m t, bytes_ok a = true -> bytes_ok b = true ->
  base58_encode a n = Some t -> base58_encode b m = Some t -> a = b.
Proof. exact base58_injective. Qed.
Print Assumptions C09_injective.
(** Raw P2PK (38 bytes) and P2SH (29 bytes) addresses fit the 55-byte address buffer
    with its NUL, hence also the 70-byte one. *)
Theorem C09_fits : forall a cap, bytes_ok a = true -> (length a <= 38)%nat -> (55 <= cap)%nat ->
  exists t, base58_encode a cap = Some t /\ (length t < 55)%nat.
Proof. exact base58_fits. Qed.
Print Assumptions C09_fits.
Example C09_ex : base58_encode [0; 0; 1; 2; 255] 10 = Some (str "11LiA") /\
  base58_encode (repeat 255 38) 55 =
    Some (str "esSRNKFHpMYCTUPeaQ3coZDgiERzi8R6g6UNFHhEhVwD5jvYV81L").
Proof. split; vm_compute; reflexivity. Qed.

(** C49.  [keep] is 26 hexadecimal digits at each end, 7 on Nano S. *)
Theorem C49_shown : forall keep id, (keep = 26 \/ keep = 7)%nat -> length id = 32%nat -> bytes_ok id = true ->
  exists t, format_hex_id keep id TEXT_LEN = Some t /\ length t = (2 * keep + 3)%nat /\
    t = firstn keep (hex_text id) ++ str "..." ++ skipn (64 - keep) (hex_text id).
Proof. exact id_shown. Qed.
Print Assumptions C49_shown.
Theorem C49_what_is_identified : forall keep a b, (keep = 26 \/ keep = 7)%nat ->
  length a = 32%nat -> length b = 32%nat -> bytes_ok a = true -> bytes_ok b = true ->
  (format_hex_id keep a TEXT_LEN = format_hex_id keep b TEXT_LEN <->
   firstn keep (hex_text a) = firstn keep (hex_text b) /\
   skipn (64 - keep) (hex_text a) = skipn (64 - keep) (hex_text b)).
Proof. exact id_shown_eq. Qed.
Print Assumptions C49_what_is_identified.
(** On the larger devices exactly the first and last thirteen bytes. *)
Theorem C49_bytes : forall a b,
  length a = 32%nat -> length b = 32%nat -> bytes_ok a = true -> bytes_ok b = true ->
  (format_hex_id 26 a TEXT_LEN = format_hex_id 26 b TEXT_LEN <->
   firstn 13 a = firstn 13 b /\ skipn 19 a = skipn 19 b).
Proof. exact id_shown_bytes. Qed.
Print Assumptions C49_bytes.
Theorem C49_identify_refuted : forall keep, (keep = 26 \/ keep = 7)%nat ->
  exists a b, length a = 32%nat /\ length b = 32%nat /\ bytes_ok a = true /\ bytes_ok b = true /\
    a <> b /\ format_hex_id keep a TEXT_LEN = format_hex_id keep b TEXT_LEN.
Proof. exact id_clash. Qed.
Print Assumptions C49_identify_refuted.
Example C49_ex : format_hex_id 7 (map N.of_nat (seq 0 32)) TEXT_LEN = Some (str "0001020...C1D1E1F").
Proof. vm_compute. reflexivity. Qed.

(** C50. *)
Theorem C50_erg : forall v, v < 2 ^ 64 ->
  exists t, format_erg_amount v TEXT_LEN = Some t /\ is_erg_text v t /\ (length t <= 25)%nat.
Proof. exact erg_shown. Qed.
Print Assumptions C50_erg.
Theorem C50_erg_injective : forall v w t, v < 2 ^ 64 -> w < 2 ^ 64 ->
  format_erg_amount v TEXT_LEN = Some t -> format_erg_amount w TEXT_LEN = Some t -> v = w.
Proof. exact erg_injective. Qed.
Print Assumptions C50_erg_injective.
Theorem C50_token : forall v cap, v < 2 ^ 64 -> (21 <= cap)%nat ->
  exists t, format_u64 v cap = Some t /\ is_decimal v t /\ (length t <= 20)%nat.
Proof. exact format_u64_spec. Qed.
Print Assumptions C50_token.
Theorem C50_token_injective : forall v w t, is_decimal v t -> is_decimal w t -> v = w.
Proof. exact is_decimal_inj. Qed.
Print Assumptions C50_token_injective.
Example C50_ex : format_erg_amount 1100000 TEXT_LEN = Some (str "0.001100000 ERG") /\
  format_erg_amount 18446744073709551615 TEXT_LEN = Some (str "18446744073.709551615 ERG") /\
  format_u64 18446744073709551615 TEXT_LEN = Some (str "18446744073709551615").
Proof. repeat split. Qed.
