(** src/common/zigzag.h.  Signed shifts are two's complement, as on the target
    compiler: [v << 1] keeps the low bits and [v >> k] is arithmetic.  (ISO C calls
    the left shift of a negative value undefined; the compilers used define it.) *)
From Verif Require Import Base.

(** Reinterpretation of a mathematical integer as int32_t / int64_t. *)
Definition wrap32 (z : Z) : Z := z_of_u32 (u32_of_z z).
Definition wrap64 (z : Z) : Z := z_of_u64 (u64_of_z z).

(** zigzag.h:12-14: the int32_t result is converted to uint64_t (sign extension). *)
Definition zigzag_encode_i32 (v : Z) : N :=
  u64_of_z (Z.lxor (wrap32 (Z.shiftl v 1)) (Z.shiftr v 31)).

(** zigzag.h:16-18 *)
Definition zigzag_decode_i32 (v : N) : Z :=
  Z.lxor (Z.of_N (N.shiftr (u32 v) 1)) (- (Z.land (z_of_u32 (u32 v)) 1)).

(** zigzag.h:20-22 *)
Definition zigzag_encode_i64 (v : Z) : N :=
  u64_of_z (Z.lxor (wrap64 (Z.shiftl v 1)) (Z.shiftr v 63)).

(** zigzag.h:24-26 *)
Definition zigzag_decode_i64 (v : N) : Z :=
  z_of_u64 (N.lxor (N.shiftr v 1) (u64_of_z (- Z.of_N (N.land v 1)))).
