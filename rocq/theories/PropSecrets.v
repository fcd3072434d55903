(** C65: keys and signatures when the cryptographic primitives fail, and what is left in
    memory. *)
From Coq Require Import String.
From Verif Require Import Lib Env Schnorr SpecTree SpecSign Secrets SpecSecrets Toy SecretsProofs.

(** C65.  Let every primitive, at every call, either fail or be right ([faithful]).  Whatever
    was in memory, a signature that comes out is the Schnorr signature by the key of the path,
    with a usable nonce drawn in this session, of the bytes hashed between the two steps; and then no
    key, nonce or intermediate value is left in local buffers or in the context. *)
Theorem C65_signature : forall E K Ks K' p nonces key junk h key1 f msg junk1 junk2 sig0 sig key2 g,
  env_ok E -> faithful E K -> (forall i, faithful E (Ks i)) -> faithful E K' -> length sig0 = 56%nat ->
  start_secrets K Ks p nonces key junk = (Some h, key1, f) ->
  finish_secrets K' p (h ++ msg) key1 junk1 junk2 sig0 = (Some sig, key2, g) ->
  In key1 nonces /\ 0 < be_value key1 <= GROUP_ORDER /\ (exists secret chain, e_derive E p = Some (secret, chain) /\ schnorr E secret key1 msg sig) /\ wiped (f ++ g) [] /\ blank key2.
Proof. exact signature_ok. Qed.
Print Assumptions C65_signature.
(** Primitives that do not fail exist for every environment; here a session with two draws,
    the first of which is unusable. *)
Example C65_ex : faithful toy (sdk_of toy false false) /\ unfailing toy (sdk_of toy false false) /\
  match start_secrets (sdk_of toy false false) (fun _ => sdk_of toy false false) [1; 2] TWO [] [] with
  | (Some h, k, _) => k = be_bytes 32 12345 /\
      match finish_secrets (sdk_of toy false false) [1; 2] (h ++ [1; 2; 3]) k [] [] (zeros 56) with (Some s, _, g) => blen s = 56 /\ length g = 5%nat | _ => False end
  | _ => False
  end.
Proof.
  split; [apply sdk_of_faithful, toy_ok|]. split; [apply sdk_of_unfailing|]. vm_compute.
  split; [reflexivity|]. split; reflexivity.
Qed.

(** Public keys likewise: success means the key and chain code of the path. *)
Theorem C65_public_key : forall E K p out own w chain f, faithful E K -> generate_public_key_k K p out own = (0, w, chain, f) ->
  (exists secret c, e_derive E p = Some (secret, c) /\ e_mulG E secret = Some w /\ (own = true -> chain = Some c) /\ (own = false -> chain = None)) /\ wiped f [].
Proof. exact public_ok. Qed.
Print Assumptions C65_public_key.
Example C65_public_key_ex : match generate_public_key_k (sdk_of toy false false) [1; 2] [] true with (0, w, Some c, _) => blen w = 65 /\ blen c = 32 | _ => False end.
Proof. vm_compute. split; reflexivity. Qed.

(** With primitives that never fail the two steps and the key generation are those of the
    model of the application used in all other theorems. *)
Theorem C65_agreement : forall E K p nonces key junk junk' hash sig0 out own secret chain, env_ok E -> faithful E K -> unfailing E K -> e_derive E p = Some (secret, chain) ->
  match schnorr_sign_init E secret nonces with
  | Some (h, k) => exists f, start_secrets K (fun _ => K) p nonces key junk = (Some h, k, f)
  | None => exists k f, start_secrets K (fun _ => K) p nonces key junk = (None, k, f)
  end /\
  (exists f, finish_secrets K p hash key junk junk' sig0 = (schnorr_sign_finish E hash secret key, zeros 32, f)) /\
  (forall w, e_mulG E secret = Some w -> exists f, generate_public_key_k K p out own = (0, w, if own then Some chain else None, f)).
Proof.
  exact (fun E K p nonces key junk junk' hash sig0 out own secret chain Henv F U D =>
    conj (start_ideal E K p nonces key junk secret chain F U D)
    (conj (finish_ideal E K p hash key junk junk' sig0 secret chain Henv F U D)
          (fun w M => public_ideal E K p out own secret chain w F U D M))).
Qed.
Print Assumptions C65_agreement.
Example C65_agreement_ex : env_ok toy /\ faithful toy (sdk_of toy false false) /\ unfailing toy (sdk_of toy false false) /\ e_derive toy [1; 2] <> None.
Proof. split; [exact toy_ok|]. split; [apply sdk_of_faithful, toy_ok|]. split; [apply sdk_of_unfailing|]. vm_compute. discriminate. Qed.

(** What is left in memory, for primitives that do anything at all.  Key generation and the
    first step leave nothing but the buffer that derivation wrote before it failed; a failed
    first step leaves no new nonce in the context. *)
Theorem C65_erased_start : forall K Ks p nonces key junk out own,
  (forall c w chain f, generate_public_key_k K p out own = (c, w, chain, f) ->
    wiped f ["raw_private_key"%string] /\ (fst (k_derive K p) = 0 -> wiped f [])) /\
  (forall r key' f, start_secrets K Ks p nonces key junk = (r, key', f) ->
    wiped f ["raw_private_key"%string] /\ (fst (k_derive K p) = 0 -> wiped f []) /\ (r = None -> key' = key \/ blank key')).
Proof. exact (fun K Ks p nonces key junk out own => conj (public_left K p out own) (start_left K Ks p nonces key junk)). Qed.
Print Assumptions C65_erased_start.
(** A first step whose hundred draws are all unusable. *)
Example C65_erased_start_ex : fst (k_derive (sdk_of toy false false) [1; 2]) = 0 /\
  match start_secrets (sdk_of toy false false) (fun _ => sdk_of toy false false) [1; 2] [] [7] [8] with (None, k, f) => k = zeros 32 /\ length f = 5%nat | _ => False end.
Proof. vm_compute. split; [reflexivity|]. split; reflexivity. Qed.

(** The final step always erases the nonce of the context, and everything else if it
    succeeds.  If it fails, [secret] has not been written and [buf] may hold the challenge or
    its product with a key. *)
Theorem C65_erased_finish : forall K p hash key junk junk' sig0 r key' f, finish_secrets K p hash key junk junk' sig0 = (r, key', f) ->
  blank key' /\ (r <> None -> fst (k_derive K p) = 0 -> wiped f []) /\
  (fst (k_derive K p) = 0 -> wiped f ["secret"%string; "buf"%string]) /\
  wiped f ["raw_private_key"%string; "secret"%string; "buf"%string] /\
  (forall s, left_in f "secret" s -> blank s \/ s = junk) /\
  (forall b, left_in f "buf" b -> blank b \/ b = junk' \/
     (let x := zeros 8 ++ firstn 24 (snd (k_hash_final K hash)) in
      b = x ++ skipn 32 junk' \/ exists secret, b = snd (k_multm K x secret ORDER_BYTES) ++ skipn 32 junk')).
Proof. exact finish_left. Qed.
Print Assumptions C65_erased_finish.
Example C65_erased_finish_ex : fst (k_derive (sdk_of toy false false) [1; 2]) = 0 /\
  match finish_secrets (sdk_of toy false false) [1; 2] [5; 6] (be_bytes 32 99) [] [] (zeros 56) with (Some _, _, f) => length f = 5%nat | _ => False end.
Proof. vm_compute. split; reflexivity. Qed.

(** "Nothing secret is left after a failure" is false.  If the last addition fails, the
    product of challenge and key stays on the stack: whoever can invert the (computable)
    challenge has the key.  If derivation fails late, what it wrote stays. *)
Theorem C65_product_refuted : forall E p hash key junk junk' sig0 secret chain, env_ok E -> e_derive E p = Some (secret, chain) ->
  be_value (firstn 24 (e_blake E hash)) <> 0 ->
  exists K key' f product, faithful E K /\ finish_secrets K p hash key junk junk' sig0 = (None, key', f) /\
    left_in f "buf" (product ++ skipn 32 junk') /\ length product = 32%nat /\
    forall u, (u * be_value (firstn 24 (e_blake E hash))) mod GROUP_ORDER = 1 -> (u * be_value product) mod GROUP_ORDER = be_value secret mod GROUP_ORDER.
Proof. exact product_left. Qed.
Print Assumptions C65_product_refuted.
Theorem C65_raw_key_refuted : forall E p nonces key junk secret chain, env_ok E -> e_derive E p = Some (secret, chain) ->
  exists K Ks key' f, faithful E K /\ (forall i, faithful E (Ks i)) /\ start_secrets K Ks p nonces key junk = (None, key', f) /\
    left_in f "raw_private_key" (secret ++ zeros 32).
Proof. exact raw_left. Qed.
Print Assumptions C65_raw_key_refuted.
Example C65_refuted_ex : env_ok toy /\ e_derive toy [1; 2] <> None /\ be_value (firstn 24 (e_blake toy [5; 6])) <> 0.
Proof. split; [exact toy_ok|]. split; vm_compute; discriminate. Qed.

(** "An error of derivation is never taken for success" is false for error codes that are
    multiples of 2^16 (the code is cut to 16 bits; the SDK has none): the private key would
    be zero.  The first step refuses it. *)
Theorem C65_code_refuted : forall p out, exists K f, fst (k_derive K p) <> 0 /\ generate_private_key K p out = (0, zeros 32, f).
Proof. exact code_lost. Qed.
Print Assumptions C65_code_refuted.
