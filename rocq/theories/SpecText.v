(** What the texts on screen are supposed to be, independently of the code. *)
From Coq Require Import String.
From Verif Require Import Base.

Definition digit (c : N) : Prop := 48 <= c <= 57.
Definition dec_value (t : text) : N := fold_left (fun a c => a * 10 + (c - 48)) t 0.
(** [t] is the usual decimal writing of [n]: digits only, no superfluous leading zero. *)
Definition is_decimal (n : N) (t : text) : Prop :=
  t <> [] /\ Forall digit t /\ dec_value t = n /\ (hd 0 t = 48 -> length t = 1%nat).

(** "44'/429'/0'/0/7": components below 2^31 plain, the others marked with a quote. *)
Definition component_text (x : N) (t : text) : Prop :=
  exists d, is_decimal (x mod 2 ^ 31) d /\ t = d ++ (if 2 ^ 31 <=? x then str "'" else []).
Inductive is_path_text : list N -> text -> Prop :=
| path_text_one : forall x c, component_text x c -> is_path_text [x] c
| path_text_more : forall x p c t, component_text x c -> is_path_text p t ->
    is_path_text (x :: p) (c ++ str "/" ++ t).

(** Base58: leading zero bytes are leading '1's; the rest is one big number. *)
Definition b58_chars : text :=
  str "123456789ABCDEFGHJKLMNPQRSTUVWXYZabcdefghijkmnopqrstuvwxyz".
Definition b58_value (ds : list N) : N := fold_left (fun a d => a * 58 + d) ds 0.
Definition is_base58 (b : bytes) (t : text) : Prop :=
  exists zeros body ds,
    b = repeat 0 zeros ++ body /\ hd 1 body <> 0 /\
    t = repeat 49 zeros ++ map (fun d => nth (N.to_nat d) b58_chars 0) ds /\
    Forall (fun d => d < 58) ds /\ hd 1 ds <> 0 /\
    b58_value ds = be_value body.

(** "1.500000000 ERG" *)
Definition is_erg_text (nano : N) (t : text) : Prop :=
  exists whole frac, t = whole ++ str "." ++ frac ++ str " ERG" /\
    is_decimal (nano / 10 ^ 9) whole /\
    length frac = 9%nat /\ Forall digit frac /\ dec_value frac = nano mod 10 ^ 9.

(** Upper-case hexadecimal. *)
Definition hex_char (n : N) : N := nth (N.to_nat n) (str "0123456789ABCDEF") 0.
Definition hex_text (l : bytes) : text :=
  flat_map (fun b => [hex_char (b / 16); hex_char (b mod 16)]) l.
