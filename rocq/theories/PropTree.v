(** C10: which trees are recognised. *)
From Verif Require Import Lib ErgoTree OutputInfo SpecTree TreeProofs.

(** A tree which arrives in one chunk (every tree of 36 or 44 bytes does, see
    C13_small_trees) is taken for a key exactly when it is the P2PK tree of that key, for
    a script hash exactly when it is the P2SH tree with that hash, and for a script, kept
    as received, otherwise. *)
Theorem C10_recognised : forall blake o tree r, oi_type o = OT_UNKNOWN -> oi_tree_set o = false ->
  oi_box_finished o = false ->
  output_info_add_tree_chunk blake o tree true = r ->
  exists o', r = (SW_OK, o') /\ oi_tree_set o' = true /\ oi_box_finished o' = false /\
    oi_value o' = oi_value o /\ oi_tokens o' = oi_tokens o /\
    (forall pk, oi_type o' = OT_ADDRESS pk <-> is_p2pk_tree pk tree) /\
    (forall h, oi_type o' = OT_SCRIPT_HASH h <-> is_p2sh_tree h tree) /\
    ((exists pk, is_p2pk_tree pk tree) \/ (exists h, is_p2sh_tree h tree) \/ oi_type o' = OT_SCRIPT tree).
Proof. exact classify_spec. Qed.
Print Assumptions C10_recognised.
Theorem C10_p2pk : forall tree pk, length tree = 36%nat ->
  (ergo_tree_parse_p2pk tree = Some pk <-> is_p2pk_tree pk tree).
Proof. exact parse_p2pk_spec. Qed.
Print Assumptions C10_p2pk.
Theorem C10_p2sh : forall tree h, length tree = 44%nat ->
  (ergo_tree_parse_p2sh tree = Some h <-> is_p2sh_tree h tree).
Proof. exact parse_p2sh_spec. Qed.
Print Assumptions C10_p2sh.
(** The device's own change tree is the P2PK tree of the compressed key. *)
Theorem C10_own_tree : forall raw, length raw = 65%nat ->
  is_p2pk_tree (compressed raw) (ergo_tree_generate_p2pk raw).
Proof. exact change_tree_is_p2pk. Qed.
Print Assumptions C10_own_tree.

Example C10_ex :
  let raw := 4 :: repeat 7 32 ++ repeat 9 32 in
  ergo_tree_parse_p2pk (ergo_tree_generate_p2pk raw) = Some (3 :: repeat 7 32) /\
  (exists o', output_info_add_tree_chunk (fun x => x) (output_info_init 5)
                (P2SH_PREFIX ++ repeat 1 24 ++ P2SH_SUFFIX) true = (SW_OK, o') /\
              oi_type o' = OT_SCRIPT_HASH (repeat 1 24)).
Proof. split; [reflexivity|]. eexists. split; reflexivity. Qed.
