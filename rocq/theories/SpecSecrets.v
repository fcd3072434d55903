(** The primitives of the SDK as they should be, and memory that holds no secrets. *)
From Coq Require Import String.
From Verif Require Import Base Env SpecSign Secrets.

(** The generator of secp256k1. *)
Definition GENERATOR : bytes :=
  0x04 :: be_bytes 32 0x79be667ef9dcbbac55a06295ce870b07029bfcdb2dce28d959f2815b16f81798 ++
          be_bytes 32 0x483ada7726a3c4655da4fbfc0e1108a8fd17b448a68554199c47d08ffb10d4b8.

(** The primitives may fail at any time, but when they report success the result is right. *)
Record faithful (E : env) (K : sdk) : Prop := mk_faithful {
  fa_derive : forall p raw chain d, k_derive K p = (0, (raw, chain)) -> k_init_key K (firstn 32 raw) = (0, d) -> e_derive E p = Some (d, chain);
  fa_pair : forall d w, k_pair K d = (0, w) -> e_mulG E d = Some w;
  fa_init : forall h, k_hash_init K = (0, h) -> h = [];
  fa_update : forall h x h', k_hash_update K h x = (0, h') -> h' = h ++ x;
  fa_final : forall h x, k_hash_final K h = (0, x) -> x = e_blake E h;
  fa_cmp : forall a b z, k_cmp K a b = (0, z) -> (0 < z)%Z <-> be_value b < be_value a;
  fa_mul : forall k w, k_mul K GENERATOR k = (0, w) -> e_mulG E k = Some w;
  fa_multm : forall a b n x, k_multm K a b n = (0, x) -> x = be_bytes 32 ((be_value a * be_value b) mod be_value n);
  fa_addm : forall a b n x, k_addm K a b n = (0, x) -> x = be_bytes 32 ((be_value a + be_value b) mod be_value n);
  (** Error codes of derivation and key generation are not multiples of 2^16. *)
  fa_codes : forall c, (exists p, c = fst (k_derive K p)) \/ (exists r, c = fst (k_init_key K r)) \/ (exists d, c = fst (k_pair K d)) ->
    c <> 0 -> c mod 2 ^ 16 <> 0 }.
(** They fail only where the environment says so. *)
Record unfailing (E : env) (K : sdk) : Prop := mk_unfailing {
  un_derive : forall p, e_derive E p <> None -> fst (k_derive K p) = 0;
  un_init : forall r, fst (k_init_key K r) = 0;
  un_pair : forall d, e_mulG E d <> None -> fst (k_pair K d) = 0;
  un_hash : fst (k_hash_init K) = 0 /\ (forall h x, fst (k_hash_update K h x) = 0) /\ (forall h, fst (k_hash_final K h) = 0);
  un_cmp : forall a b, fst (k_cmp K a b) = 0;
  un_mul : forall k, e_mulG E k <> None -> fst (k_mul K GENERATOR k) = 0;
  un_math : forall a b n, fst (k_multm K a b n) = 0 /\ fst (k_addm K a b n) = 0 }.

Definition blank (l : bytes) : Prop := Forall (fun x => x = 0) l.
(** Every local buffer, except for those named, is all zero. *)
Definition wiped (f : frame) (except : list string) : Prop :=
  Forall (fun b => In (fst b) except \/ blank (snd b)) f.
(** The buffer [name] holds [b]. *)
Definition left_in (f : frame) (name : string) (b : bytes) : Prop := In (name, b) f.
