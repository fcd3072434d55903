(** Transactions as a node reads them, and their bytes.  A node cuts scripts, registers and
    context extensions out of the byte stream by grammars of its own; all that matters of
    these here is that none of their words is the beginning of another. *)
From Verif Require Import Base Env SpecVlq SpecTree SpecTrace SpecTx.

Record n_output := mk_no {
  no_value : N; no_script : bytes; no_height : N;
  no_tokens : list (N * N);      (* index into the distinct tokens, amount *)
  no_registers : bytes }.        (* with their number in front *)
Record n_tx := mk_nt {
  nt_inputs : list (bytes * bytes);   (* box id, context extension with its length in front *)
  nt_data : list bytes;
  nt_tokens : list bytes;
  nt_outputs : list n_output }.

(** The bytes to sign: inputs with empty proofs, data inputs, distinct tokens, outputs. *)
Definition n_output_bytes (o : n_output) : bytes :=
  vlq (no_value o) ++ no_script o ++ vlq (no_height o) ++
  [blen (no_tokens o)] ++ concat (map (fun t => vlq (fst t) ++ vlq (snd t)) (no_tokens o)) ++ no_registers o.
Definition n_bytes (t : n_tx) : bytes :=
  vlq (blen (nt_inputs t)) ++ concat (map (fun i => fst i ++ [0] ++ snd i) (nt_inputs t)) ++
  vlq (blen (nt_data t)) ++ concat (nt_data t) ++
  vlq (blen (nt_tokens t)) ++ concat (nt_tokens t) ++
  vlq (blen (nt_outputs t)) ++ concat (map n_output_bytes (nt_outputs t)).

(** Scripts, register blocks and context extensions a node can read. *)
Record grammar := mk_grammar {
  g_script : bytes -> Prop; g_registers : bytes -> Prop; g_extension : bytes -> Prop }.
Definition prefix_free (L : bytes -> Prop) : Prop := forall x y r s, L x -> L y -> x ++ r = y ++ s -> x = y.
Definition readable_grammar (G : grammar) : Prop :=
  prefix_free (g_script G) /\ prefix_free (g_registers G) /\ prefix_free (g_extension G).
(** A transaction a node with this grammar can read. *)
Record readable (G : grammar) (t : n_tx) : Prop := mk_readable {
  rd_inputs : Forall (fun i => length (fst i) = 32%nat /\ g_extension G (snd i)) (nt_inputs t);
  rd_data : Forall (fun i => length i = 32%nat) (nt_data t);
  rd_tokens : Forall (fun i => length i = 32%nat) (nt_tokens t);
  rd_outputs : Forall (fun o => g_script G (no_script o) /\ g_registers G (no_registers o)) (nt_outputs t) }.

(** The transaction described in a session, as a node should read it. *)
Definition node_output (E : env) (o : s_output) : n_output :=
  mk_no (so_value o) (match so_dest o with Some d => dest_tree E d | None => [] end) (so_height o) (so_tokens o)
        (if so_regs_len o =? 0 then [0] else so_regs o).
Definition node_tx (E : env) (d : s_tx) : n_tx :=
  mk_nt (map (fun i => (si_id i, if si_ext_len i =? 0 then [0] else si_ext i)) (sx_inputs d))
        (sx_data d) (sx_tokens d) (map (node_output E) (sx_outputs d)).

(** An attested box whose script and registers a node can read. *)
Definition readable_box (G : grammar) (b : s_box) : Prop :=
  (exists t, sb_tree b = Some t /\ g_script G t) /\ g_registers G (if sb_regs_len b =? 0 then [0] else sb_regs b).

(** A small grammar of this kind: the standard scripts; no registers, or one holding less than
    128 bytes; no extensions. *)
Definition standard_script (s : bytes) : Prop :=
  (exists pk, is_p2pk_tree pk s) \/ (exists h, is_p2sh_tree h s) \/ s = FEE_TREE.
Definition small_registers (r : bytes) : Prop :=
  r = [0] \/ exists l, r = [1; 0x0e; blen l] ++ l /\ blen l < 128.
Definition standard : grammar := mk_grammar standard_script small_registers (fun x => x = [0]).
