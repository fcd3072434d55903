(** Text formatting used by the screens: src/commands/signtx/stx_ui.c:32-65 and the SDK's
    format.c (format_hex, format_u64, format_fpu64), which is not in /repo and is modelled
    from its documented behaviour.  [cap] is the destination size including the NUL. *)
From Coq Require Import String.
From Verif Require Import Base Bip32 Base58.

(** Title and text sizes of the dynamic screens (stx_types.h:44-45, 58-59). *)
Definition TITLE_LEN : nat := 20.
Definition TEXT_LEN : nat := 70.

(** strncpy / snprintf into a zeroed buffer: what a reader of the C string sees. *)
Definition cstr (cap : nat) (t : text) : text := firstn (cap - 1) t.

Definition hex_digit (n : N) : N := if n <? 10 then 48 + n else 55 + n.
(** SDK format_hex: upper-case digits, fails when 2*len+1 exceeds the room. *)
Definition hex_of (l : bytes) : text :=
  concat (map (fun b => [hex_digit (b / 16); hex_digit (b mod 16)]) l).
Definition format_hex (l : bytes) (cap : nat) : option text :=
  if Nat.ltb cap (2 * length l + 1) then None else Some (hex_of l).

(** stx_ui.c:32-40; [keep] is ERGO_ID_UI_CHARACTERS_HALF (stx_ui.c:21-25). *)
Definition id_string_remove_middle (keep : nat) (t : text) : text :=
  if Nat.leb (length t) (2 * keep + 3) then t
  else firstn keep t ++ [46; 46; 46] ++ skipn (length t - keep) t.

(** stx_ui.c:42-47 *)
Definition format_hex_id (keep : nat) (l : bytes) (cap : nat) : option text :=
  match format_hex l cap with
  | None => None
  | Some t => Some (id_string_remove_middle keep t)
  end.

(** stx_ui.c:49-53.  base58_encode writes no NUL; the buffer was zeroed before. *)
Definition format_b58_id (l : bytes) (cap : nat) : option text :=
  match base58_encode l cap with
  | None | Some [] => None
  | Some t => Some t
  end.

(** SDK format_u64: fails when the digits and the NUL do not fit. *)
Definition format_u64 (v : N) (cap : nat) : option text :=
  if Nat.ltb cap (length (dec v) + 1) then None else Some (dec v).

(** SDK format_fpu64 with a 21-byte digit buffer. *)
Definition format_fpu64 (v : N) (decimals : nat) (cap : nat) : option text :=
  let d := dec v in
  let n := length d in
  if Nat.leb n decimals then
    if Nat.leb cap (2 + decimals - n) then None
    else Some ([48; 46] ++ repeat 48 (decimals - n) ++ firstn (cap - (2 + decimals - n)) d)
  else
    if Nat.leb cap (n + 1 + decimals) then None
    else Some (firstn (n - decimals) d ++ [46] ++ skipn (n - decimals) d).

(** constants.h: ERGO_ERG_FRACTION_DIGIT_COUNT *)
Definition ERG_DIGITS : nat := 9.
(** stx_ui.c:55-65 *)
Definition format_erg_amount (v : N) (cap : nat) : option text :=
  match format_fpu64 v ERG_DIGITS cap with
  | None => None
  | Some t => if Nat.ltb cap 5 || Nat.ltb (cap - 5) (length t) then None
              else Some (t ++ str " ERG")
  end.

(** ui_application_id.c:20: snprintf "0x%08x" into 11 bytes (always 10 characters). *)
Definition hex_digit_lower (n : N) : N := if n <? 10 then 48 + n else 87 + n.
Definition app_id_text (id : N) : text :=
  str "0x" ++ concat (map (fun b => [hex_digit_lower (b / 16); hex_digit_lower (b mod 16)])
                          (be_bytes 4 id)).
