(** C01-C05: the variable-length number codec and the checked arithmetic. *)
From Verif Require Import Lib SpecVlq SafeInt Zigzag Gve CodecProofs.

(** C01.  Whatever follows, reading back a written number gives the number and leaves
    exactly what follows.  The bytes written are Ergo's VLQ code of the number. *)
Theorem C01_u64_roundtrip : forall n rest, n < 2 ^ 64 ->
  is_vlq n (gve_put_u64 n) /\ gve_get_u64 (gve_put_u64 n ++ rest) = GveOk n rest.
Proof. exact (fun n rest H => conj (proj1 (gve_put_u64_facts n H)) (gve_get_put n rest H)). Qed.
Print Assumptions C01_u64_roundtrip.
Theorem C01_u32_roundtrip : forall n rest, n < 2 ^ 32 ->
  is_vlq n (gve_put_u32 n) /\ gve_get_u32 (gve_put_u32 n ++ rest) = GveOk n rest.
Proof. exact gve_u32_code. Qed.
Print Assumptions C01_u32_roundtrip.
Theorem C01_u16_roundtrip : forall n rest, n < 2 ^ 16 ->
  is_vlq n (gve_put_u16 n) /\ gve_get_u16 (gve_put_u16 n ++ rest) = GveOk n rest.
Proof. exact gve_u16_code. Qed.
Print Assumptions C01_u16_roundtrip.
(** A number which does not fit the narrow type is refused. *)
Theorem C01_narrow_refuses : forall n rest, n < 2 ^ 64 ->
  (2 ^ 32 <= n -> gve_get_u32 (gve_put_u64 n ++ rest) = GveErr GVE_ERR_INT_TO_BIG) /\
  (2 ^ 16 <= n -> gve_get_u16 (gve_put_u64 n ++ rest) = GveErr GVE_ERR_INT_TO_BIG).
Proof. exact gve_narrow_refuses. Qed.
Print Assumptions C01_narrow_refuses.
Example C01_ex : 18446744073709551615 < 2 ^ 64 /\
  gve_put_u64 18446744073709551615 = [255;255;255;255;255;255;255;255;255;1] /\
  gve_put_u64 300 = [172; 2].
Proof. repeat split; vm_compute; reflexivity. Qed.

(** C02.  Codes of different numbers are never prefixes of one another (take [y = []]),
    even with arbitrary continuations. *)
Theorem C02_prefix_free : forall a b x y, a < 2 ^ 64 -> b < 2 ^ 64 ->
  gve_put_u64 a ++ x = gve_put_u64 b ++ y -> a = b /\ x = y.
Proof. exact gve_prefix_free. Qed.
Print Assumptions C02_prefix_free.
(** A concatenation of codes can be cut back in only one way. *)
Theorem C02_concat_unique : forall l1 l2,
  Forall (fun n => n < 2 ^ 64) l1 -> Forall (fun n => n < 2 ^ 64) l2 ->
  concat (map gve_put_u64 l1) = concat (map gve_put_u64 l2) -> l1 = l2.
Proof. exact gve_concat_unique. Qed.
Print Assumptions C02_concat_unique.
Theorem C02_length : forall n, n < 2 ^ 64 -> (1 <= length (gve_put_u64 n) <= 10)%nat.
Proof. exact (fun n H => proj1 (proj2 (gve_put_u64_facts n H))). Qed.
Print Assumptions C02_length.
(** The decoder, given any bytes from which it reads [v], has consumed at least as many
    bytes as the encoder writes for [v]. *)
Theorem C02_minimal : forall consumed rest v, bytes_ok (consumed ++ rest) = true ->
  gve_get_u64 (consumed ++ rest) = GveOk v rest ->
  (length (gve_put_u64 v) <= length consumed)%nat.
Proof. exact (fun c r v H => gve_get_minimal (c ++ r) v c r H eq_refl). Qed.
Print Assumptions C02_minimal.
Example C02_ex : gve_put_u64 5 ++ [1;2] = [5;1;2] /\
  gve_get_u64 [133; 0; 9] = GveOk 5 [9].
Proof. split; vm_compute; reflexivity. Qed.

(** C03.  Success consumes between 1 and 10 bytes and yields a uint64_t. *)
Theorem C03_success_bounded : forall l v rest, bytes_ok l = true ->
  gve_get_u64 l = GveOk v rest ->
  v < 2 ^ 64 /\ exists consumed, l = consumed ++ rest /\ (1 <= length consumed <= 10)%nat.
Proof. exact gve_get_success. Qed.
Print Assumptions C03_success_bounded.
(** Failure is always the data-size error and happens exactly when the input has fewer
    than ten bytes and every one of them announces another. *)
Theorem C03_failure : forall l, bytes_ok l = true ->
  (gve_get_u64 l = GveErr GVE_ERR_DATA_SIZE <->
     (length l < 10)%nat /\ forall b, In b l -> 128 <= b) /\
  (forall e, gve_get_u64 l = GveErr e -> e = GVE_ERR_DATA_SIZE).
Proof. exact gve_get_failure. Qed.
Print Assumptions C03_failure.
(** Only canonical codes are accepted: false, even by value and even past ten bytes. *)
Theorem C03_canonical_refuted :
  (exists l v, bytes_ok l = true /\ gve_get_u64 l = GveOk v [] /\ l <> gve_put_u64 v) /\
  (exists l v rest, bytes_ok l = true /\ gve_get_u64 l = GveOk v rest /\
     (forall b, In b (firstn 10 l) -> 128 <= b) /\ length rest = 1%nat).
Proof. exact gve_noncanonical. Qed.
Print Assumptions C03_canonical_refuted.
Example C03_ex : bytes_ok [200; 1] = true /\ gve_get_u64 [200; 1] = GveOk 200 [] /\
  gve_get_u64 [200; 129] = GveErr GVE_ERR_DATA_SIZE.
Proof. repeat split; vm_compute; reflexivity. Qed.

(** C04.  [zigzag] (SpecVlq.v) numbers 0, -1, 1, -2, 2, ...; on the wire a number is the
    VLQ code of its zigzag number. *)
Theorem C04_i64_codec : forall z, (-2 ^ 63 <= z < 2 ^ 63)%Z ->
  zigzag_encode_i64 z = zigzag z /\ zigzag_decode_i64 (zigzag_encode_i64 z) = z.
Proof. exact zigzag_i64. Qed.
Print Assumptions C04_i64_codec.
Theorem C04_i32_codec : forall z, (-2 ^ 31 <= z < 2 ^ 31)%Z ->
  zigzag_encode_i32 z mod 2 ^ 32 = zigzag z /\ zigzag_decode_i32 (zigzag_encode_i32 z) = z.
Proof. exact zigzag_i32. Qed.
Print Assumptions C04_i32_codec.
Theorem C04_i64_wire : forall z rest, (-2 ^ 63 <= z < 2 ^ 63)%Z ->
  is_vlq (zigzag z) (gve_put_i64 z) /\ gve_get_i64 (gve_put_i64 z ++ rest) = GveOk z rest.
Proof. exact gve_i64_code. Qed.
Print Assumptions C04_i64_wire.
Theorem C04_i16_wire : forall z rest, (-2 ^ 15 <= z < 2 ^ 15)%Z ->
  is_vlq (zigzag z) (gve_put_i16 z) /\ gve_get_i16 (gve_put_i16 z ++ rest) = GveOk z rest.
Proof. exact gve_i16_code. Qed.
Print Assumptions C04_i16_wire.
(** The 32-bit wire functions round trip exactly for 31-bit values; the others are
    written sign-extended and refused by the reader. *)
Theorem C04_i32_wire : forall z rest, (-2 ^ 31 <= z < 2 ^ 31)%Z ->
  ((-2 ^ 30 <= z < 2 ^ 30)%Z -> is_vlq (zigzag z) (gve_put_i32 z) /\ gve_get_i32 (gve_put_i32 z ++ rest) = GveOk z rest) /\
  (~ (-2 ^ 30 <= z < 2 ^ 30)%Z ->
     is_vlq (zigzag z + (2 ^ 64 - 2 ^ 32)) (gve_put_i32 z) /\ gve_get_i32 (gve_put_i32 z ++ rest) = GveErr GVE_ERR_INT_TO_BIG).
Proof. exact gve_i32_code. Qed.
Print Assumptions C04_i32_wire.
Theorem C04_i32_wire_refuted : exists z, (-2 ^ 31 <= z < 2 ^ 31)%Z /\
  gve_get_i32 (gve_put_i32 z) <> GveOk z [].
Proof. exact gve_i32_wire_bad. Qed.
Print Assumptions C04_i32_wire_refuted.
Example C04_ex : map zigzag [0; -1; 1; -2; 2]%Z = [0; 1; 2; 3; 4] /\
  gve_put_i64 (-9223372036854775808) = [255;255;255;255;255;255;255;255;255;1] /\
  gve_get_i32 (gve_put_i32 (-1073741824)) = GveOk (-1073741824)%Z [].
Proof. repeat split; vm_compute; reflexivity. Qed.

(** C05. *)
Theorem C05_add_u64 : forall l r, l < 2 ^ 64 -> r < 2 ^ 64 ->
  (l + r < 2 ^ 64 -> checked_add_u64 l r = ChkOk (l + r)) /\
  (2 ^ 64 <= l + r -> checked_add_u64 l r = ChkFail).
Proof. exact add_u64_exact. Qed.
Print Assumptions C05_add_u64.
Theorem C05_sub_u64 : forall l r, l < 2 ^ 64 -> r < 2 ^ 64 ->
  (r <= l -> checked_sub_u64 l r = ChkOk (l - r)) /\
  (l < r -> checked_sub_u64 l r = ChkFail).
Proof. exact sub_u64_exact. Qed.
Print Assumptions C05_sub_u64.
Theorem C05_add_i64 : forall l r, (-2 ^ 63 < l < 2 ^ 63)%Z -> r < 2 ^ 64 ->
  ((l + Z.of_N r < 2 ^ 63)%Z -> checked_add_i64 l r = ChkOk (l + Z.of_N r)%Z) /\
  ((2 ^ 63 <= l + Z.of_N r)%Z -> checked_add_i64 l r = ChkFail).
Proof. exact add_i64_exact. Qed.
Print Assumptions C05_add_i64.
Theorem C05_sub_i64 : forall l r, (-2 ^ 63 <= l < 2 ^ 63)%Z -> r < 2 ^ 64 ->
  ((-2 ^ 63 <= l - Z.of_N r)%Z -> checked_sub_i64 l r = ChkOk (l - Z.of_N r)%Z) /\
  ((l - Z.of_N r < -2 ^ 63)%Z -> checked_sub_i64 l r = ChkFail).
Proof. exact sub_i64_exact. Qed.
Print Assumptions C05_sub_i64.
(** The one operand the addition does not handle: negating INT64_MIN is undefined in C.
    C52_no_undefined (PropDispatch.v) shows that the application never adds to such a balance. *)
Theorem C05_add_i64_min_refuted : exists l r, (-2 ^ 63 <= l < 2 ^ 63)%Z /\ r < 2 ^ 64 /\
  checked_add_i64 l r = ChkUB.
Proof. exact add_i64_min. Qed.
Print Assumptions C05_add_i64_min_refuted.
Example C05_ex : checked_add_u64 18446744073709551615 0 = ChkOk 18446744073709551615 /\
  checked_add_u64 18446744073709551615 1 = ChkFail /\
  checked_sub_i64 (-9223372036854775807) 1 = ChkOk (-9223372036854775808)%Z /\
  checked_sub_i64 (-9223372036854775807) 2 = ChkFail /\
  checked_add_i64 (-5) 18446744073709551615 = ChkFail /\
  checked_add_i64 (-5) 7 = ChkOk 2%Z.
Proof. repeat split; vm_compute; reflexivity. Qed.
