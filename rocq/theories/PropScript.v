(** C55, C56: what pages say about scripts, and ids about boxes. *)
From Coq Require Import String.
From Verif Require Import Lib Env UiFlow P2pkOp App SpecVlq SpecText SpecTree SpecTrace SpecTx SpecApdu SpecScreen SpecSign SpecRules SpecScript
  Toy RulesToy ScriptProofs.

(** C55.  Two outputs with the same destination page (same or different devices, sessions,
    histories) have the same destination; or they are scripts standing for one hash; or
    change paths of which one is too long for a page. *)
Theorem C55_page : forall E key1 tr1 st1 n1 d1 key2 tr2 st2 n2 d2 p rest1 rest2, env_ok E ->
  history E key1 tr1 st1 -> output_on_screen tr1 n1 d1 (p :: rest1) -> history E key2 tr2 st2 -> output_on_screen tr2 n2 d2 (p :: rest2) ->
  d1 = d2 \/ (exists h, script_of E h d1 /\ script_of E h d2) \/
  ((exists p q, d1 = SD_CHANGE p /\ d2 = SD_CHANGE q) /\ (long_path d1 \/ long_path d2)).
Proof. exact same_page. Qed.
Print Assumptions C55_page.
(** The page of a public key belongs to no other script and no other network. *)
Theorem C55_p2pk : forall E key1 tr1 st1 n1 d1 key2 tr2 st2 n2 d2 pk p rest1 rest2, env_ok E ->
  history E key1 tr1 st1 -> output_on_screen tr1 n1 d1 (p :: rest1) -> history E key2 tr2 st2 -> output_on_screen tr2 n2 d2 (p :: rest2) ->
  (exists t, d1 = SD_TREE t /\ is_p2pk_tree pk t) -> d2 = d1 /\ n2 = n1.
Proof. exact same_address. Qed.
Print Assumptions C55_p2pk.
(** The page does not determine the script: the same pages for different scripts. *)
Theorem C55_refuted : exists E key tr1 st1 n1 d1 tr2 st2 n2 d2 pages, env_ok E /\
  history E key tr1 st1 /\ output_on_screen tr1 n1 d1 pages /\ history E key tr2 st2 /\ output_on_screen tr2 n2 d2 pages /\
  d1 <> d2 /\ dest_tree E d1 <> dest_tree E d2.
Proof. exact hash_page. Qed.
Print Assumptions C55_refuted.
Example C55_ex : playable (TO_TREE OTHER_TREE) = true /\ output_on_screen (trace (TO_TREE OTHER_TREE)) 0 (SD_TREE OTHER_TREE) (screen_pages (TO_TREE OTHER_TREE)) /\
  length (screen_pages (TO_TREE OTHER_TREE)) = 2%nat /\ is_p2pk_tree (2 :: repeat 9 32) OTHER_TREE.
Proof.
  split; [vm_compute; reflexivity|]. split; [apply sample_on_screen; vm_compute; try reflexivity; discriminate|].
  split; [vm_compute; reflexivity|]. split; [reflexivity|]. split; [reflexivity|left; reflexivity].
Qed.

(** C56.  If the hash has no collision on the two boxes: the same id means the same value. *)
Theorem C56_value : forall E key1 tr1 st1 b1 key2 tr2 st2 b2, env_ok E -> history E key1 tr1 st1 -> attested_box E key1 tr1 b1 ->
  history E key2 tr2 st2 -> attested_box E key2 tr2 b2 -> no_collision E (box_bytes b1) (box_bytes b2) ->
  box_id E b1 = box_id E b2 -> sb_value b1 = sb_value b2.
Proof. exact id_value. Qed.
Print Assumptions C56_value.
(** With the same length of the script also the same script, height and tokens; with the
    same length of the registers the same box. *)
Theorem C56_tokens : forall E key1 tr1 st1 b1 key2 tr2 st2 b2, env_ok E -> history E key1 tr1 st1 -> attested_box E key1 tr1 b1 ->
  history E key2 tr2 st2 -> attested_box E key2 tr2 b2 -> no_collision E (box_bytes b1) (box_bytes b2) ->
  box_id E b1 = box_id E b2 -> sb_tree_len b1 = sb_tree_len b2 ->
  sb_tree b1 = sb_tree b2 /\ sb_height b1 = sb_height b2 /\ sb_tokens b1 = sb_tokens b2 /\ (sb_regs_len b1 = sb_regs_len b2 -> b1 = b2).
Proof. exact id_tokens. Qed.
Print Assumptions C56_tokens.
(** Otherwise not: a signed transaction with one input, a box attested with tokens; the
    final screen has the path and two amounts only, no output holds tokens: the tokens are
    burnt unseen.  The two attestations feed the same bytes to the hash. *)
Theorem C56_refuted : exists E key tr o st sig start body q f p1 p2 p3 b1 b2 i, env_ok E /\ history E key (tr ++ [o]) st /\ signature o = Some sig /\
  session_of INS_SIGN tr = Some (start, body) /\ on_screen tr = Some (q, U_STX_TX, f, [p1; p2; p3]) /\
  attested_box E key tr b1 /\ attested_box E key tr b2 /\ box_bytes b1 = box_bytes b2 /\
  sx_inputs (description body) = [i] /\ si_id i = box_id E b1 /\ sb_tokens b1 <> [] /\
  Forall (fun o => so_tokens o = []) (sx_outputs (description body)) /\ Forall (fun o => output_complete o = true) (sx_outputs (description body)).
Proof. exact hidden_tokens. Qed.
Print Assumptions C56_refuted.
(** The boxes of C56_refuted; and a box attested again (C56_tokens). *)
Example C56_ex : let b1 := box_at (trace HIDDEN) 4 in let b2 := box_at (trace HIDDEN) 9 in
  playable HIDDEN = true /\ attested_box toy TOY_KEY (trace HIDDEN) b1 /\ sb_tokens b1 = [(TOKEN_Z, 1000)] /\ sb_tokens b2 = [] /\
  sb_value b1 = 1000000000 /\ no_collision toy (box_bytes b1) (box_bytes b2).
Proof.
  cbv zeta. split; [vm_compute; reflexivity|]. split; [apply attested_at; vm_compute; try reflexivity; try lia; discriminate|].
  do 3 (split; [vm_compute; reflexivity|]). intros _. vm_compute. reflexivity.
Qed.
