(** C71: the hash fed piece by piece is the BLAKE2b-256 of everything fed. *)
From Verif Require Import Base Env SafeInt Blake2b.
From Verif Require Import SpecHash.
From Verif Require Import Blake2bProofs.

(** Whatever the pieces: starting, feeding each of them and finishing all succeed, and give
    BLAKE2b-256 (RFC 7693) of the pieces put together; a finished hash cannot be finished
    again. *)
Theorem C71_stream : forall pieces, Forall string_of_bytes pieces ->
  exists s0 s1 s2, blake2b_256_init = Some s0 /\ fed s0 pieces s1
    /\ blake2b_256_finalize s1 = ChkOk (s2, blake2b 32 (concat pieces))
    /\ blake2b_256_finalize s2 = ChkFail.
Proof. exact stream_ok. Qed.
Print Assumptions C71_stream.

(** Feeding has one outcome. *)
Theorem C71_fed : forall s pieces s1 s2, fed s pieces s1 -> fed s pieces s2 -> s1 = s2.
Proof. exact fed_det. Qed.
Print Assumptions C71_fed.

(** The one-shot function gives the same value. *)
Theorem C71_once : forall data, string_of_bytes data -> blake2b_256 data = ChkOk (blake2b 32 data).
Proof. exact once_ok. Qed.
Print Assumptions C71_once.

(** Digests have 32 bytes: BLAKE2b-256 meets what the other theorems ask of the hash. *)
Theorem C71_digest : forall msg, length (blake2b 32 msg) = 32%nat /\ string_of_bytes (blake2b 32 msg).
Proof. exact digest_ok. Qed.
Print Assumptions C71_digest.
Theorem C71_env : forall E, env_ok E ->
  env_ok (mk_env (blake2b 32) (e_hmac E) (e_derive E) (e_mulG E) (e_id_keep E)).
Proof. exact digest_env. Qed.
Print Assumptions C71_env.

(** "abc", in two pieces. *)
Example C71_ex :
  (exists s0 s1 s2, blake2b_256_init = Some s0 /\ fed s0 [[97]; []; [98; 99]] s1
    /\ blake2b_256_finalize s1 = ChkOk (s2, blake2b 32 [97; 98; 99]))
  /\ blake2b 32 [97; 98; 99] = [189; 221; 129; 60; 99; 66; 57; 114; 49; 113; 239; 63; 238; 152; 87; 155; 148; 150;
                                78; 59; 177; 203; 62; 66; 114; 98; 200; 192; 104; 213; 35; 25].
Proof.
  split; [|vm_compute; reflexivity].
  destruct (C71_stream [[97]; []; [98; 99]]) as (s0 & s1 & s2 & H1 & H2 & H3 & _).
  - repeat constructor.
  - exists s0, s1, s2. split; [exact H1|]. split; [exact H2|exact H3].
Qed.
