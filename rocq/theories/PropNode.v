(** C62: what else the signed bytes could be read as. *)
From Verif Require Import Lib Env UiFlow App SpecVlq SpecTree SpecTrace SpecTx SpecApdu SpecSign SpecRules SpecScript SpecNode Toy RulesToy ScriptProofs NodeProofs.

(** C62.  Take any node whose scripts, registers and context extensions are words of
    prefix-free grammars.  If the transaction described in the session has all outputs
    complete and is readable by the node, then the signed bytes are its bytes, and there is
    no other transaction that the node can read with these bytes. *)
Theorem C62_signature : forall E key tr o st sig G, env_ok E -> history E key (tr ++ [o]) st -> signature o = Some sig -> readable_grammar G ->
  exists start body msg, session_of INS_SIGN tr = Some (start, body) /\ signed_message E start msg sig /\
    (Forall (fun x => output_complete x = true) (sx_outputs (description body)) -> readable G (node_tx E (description body)) ->
     n_bytes (node_tx E (description body)) = msg /\ forall t, readable G t -> n_bytes t = msg -> t = node_tx E (description body)).
Proof. exact signed_only. Qed.
Print Assumptions C62_signature.
(** The transaction of the sample session is readable with the standard scripts only. *)
Example C62_ex : let d := tx_of SIGN_ALL in
  Forall (fun x => output_complete x = true) (sx_outputs d) /\ readable standard (node_tx toy d) /\ length (nt_outputs (node_tx toy d)) = 3%nat.
Proof.
  cbv zeta. split; [apply Forall_forall; intros x Hx; revert x Hx; apply forallb_forall; vm_compute; reflexivity|]. split; [|vm_compute; reflexivity].
  constructor.
  - apply Forall_forall. intros i Hi. vm_compute in Hi. destruct Hi as [<-|[]]. split; reflexivity.
  - constructor.
  - apply Forall_forall. intros i Hi. vm_compute in Hi. destruct Hi as [<-|[]]. reflexivity.
  - apply Forall_forall. intros x Hx. vm_compute in Hx. destruct Hx as [<-|[<-|[<-|[]]]]; cbn [no_script no_registers]; (split; [|left; reflexivity]).
    + left. exists (2 :: repeat 9 32). split; [reflexivity|]. split; [reflexivity|left; reflexivity].
    + right; right. reflexivity.
    + left. eexists (_ :: _). split; [reflexivity|]. split; [reflexivity|left; reflexivity].
Qed.

(** Two readable transactions with the same bytes are the same. *)
Theorem C62_bytes : forall G t1 t2, readable_grammar G -> readable G t1 -> readable G t2 -> n_bytes t1 = n_bytes t2 -> t1 = t2.
Proof. exact bytes_determine. Qed.
Print Assumptions C62_bytes.
(** The standard scripts are such a grammar. *)
Theorem C62_standard : readable_grammar standard.
Proof. exact standard_readable. Qed.
Print Assumptions C62_standard.

(** Boxes: if scripts and registers of two attested boxes are readable, the id determines
    the box (up to hash collisions). *)
Theorem C62_box : forall E key1 tr1 st1 b1 key2 tr2 st2 b2 G, env_ok E -> history E key1 tr1 st1 -> attested_box E key1 tr1 b1 ->
  history E key2 tr2 st2 -> attested_box E key2 tr2 b2 -> no_collision E (box_bytes b1) (box_bytes b2) ->
  readable_grammar G -> readable_box G b1 -> readable_box G b2 -> box_id E b1 = box_id E b2 ->
  sb_tx_id b1 = sb_tx_id b2 /\ sb_index b1 = sb_index b2 /\ sb_value b1 = sb_value b2 /\ sb_tree b1 = sb_tree b2 /\ sb_height b1 = sb_height b2 /\
  sb_tokens b1 = sb_tokens b2 /\ (sb_regs_len b1 = sb_regs_len b2 -> b1 = b2).
Proof. exact box_only. Qed.
Print Assumptions C62_box.
Example C62_box_ex : let b := box_at (trace ATTEST_FRAME) 4 in
  playable ATTEST_FRAME = true /\ attested_box toy TOY_KEY (trace ATTEST_FRAME) b /\ readable_box standard b /\ sb_tokens b = [(TOKEN_A, 1000)].
Proof.
  cbv zeta. split; [vm_compute; reflexivity|]. split; [apply attested_at; vm_compute; try reflexivity; try lia; discriminate|].
  split; [|vm_compute; reflexivity]. split; [|left; vm_compute; reflexivity].
  exists BOX_TREE. split; [vm_compute; reflexivity|]. left. exists (3 :: repeat 5 32). split; [reflexivity|]. split; [reflexivity|right; reflexivity].
Qed.

(** The device does not look into scripts.  Every output complete, shown and approved, and
    yet a node with the standard grammar reads the signed bytes as a transaction whose
    outputs go to other scripts: the script the user approved by its hash holds a whole
    output up to a register that swallows the bytes following the script. *)
Theorem C62_refuted : exists E key tr o st sig start body msg t, env_ok E /\ history E key (tr ++ [o]) st /\ signature o = Some sig /\
  session_of INS_SIGN tr = Some (start, body) /\ signed_message E start msg sig /\
  Forall (fun x => output_complete x = true /\ so_shown x = true /\ so_approved x = true) (sx_outputs (description body)) /\
  readable_grammar standard /\ readable standard t /\ n_bytes t = msg /\
  nt_outputs t <> nt_outputs (node_tx E (description body)) /\
  forall x y, In x (nt_outputs t) -> In y (nt_outputs (node_tx E (description body))) -> no_script x <> no_script y.
Proof. exact swallowed. Qed.
Print Assumptions C62_refuted.
