(** The bytes of a transaction determine it, for a node with a prefix-free grammar. *)
From Verif Require Import Lib Env UiFlow App SpecVlq SpecTree SpecTrace SpecTx SpecApdu SpecSign SpecRules SpecScript SpecNode CodecProofs TraceAttest
  ScriptProofs SignedProofs Toy RulesToy.

#[local] Arguments N.eqb : simpl never.
#[local] Arguments N.ltb : simpl never.
#[local] Arguments N.leb : simpl never.
#[local] Arguments blen : simpl never.

(** ** Splitting *)

(** Words cut off the front: [f] writes the elements of a list one after the other. *)
Lemma concat_split : forall A (f : A -> bytes) (P : A -> Prop),
  (forall a b x y, P a -> P b -> f a ++ x = f b ++ y -> a = b /\ x = y) ->
  forall l1 l2 x y, length l1 = length l2 -> Forall P l1 -> Forall P l2 ->
  concat (map f l1) ++ x = concat (map f l2) ++ y -> l1 = l2 /\ x = y.
Proof.
  intros A f P Hf. induction l1 as [|a l1 IH]; intros [|b l2] x y L F1 F2 E; try discriminate L; [split; [reflexivity|exact E]|].
  cbn [map concat] in E. rewrite <- !app_assoc in E. inversion F1; subst. inversion F2; subst.
  apply Hf in E as [-> E]; auto. cbn [length] in L. apply IH in E as [-> ->]; auto.
Qed.
Lemma word_split : forall L, prefix_free L -> forall x y r s, L x -> L y -> x ++ r = y ++ s -> x = y /\ r = s.
Proof. intros L H x y r s Lx Ly E. pose proof (H _ _ _ _ Lx Ly E) as ->. split; [reflexivity|]. eapply app_inv_head. exact E. Qed.
Lemma ids_split : forall l1 l2 x y, length l1 = length l2 -> Forall (fun i : bytes => length i = 32%nat) l1 -> Forall (fun i : bytes => length i = 32%nat) l2 ->
  concat l1 ++ x = concat l2 ++ y -> l1 = l2 /\ x = y.
Proof.
  intros l1 l2 x y L F1 F2 E. apply (concat_split _ (fun i : bytes => i) (fun i => length i = 32%nat)); try assumption.
  - intros a b u v Ha Hb K. apply app_inj_length; [exact K|congruence].
  - rewrite !map_id. exact E.
Qed.
Lemma blen_length : forall A (l1 l2 : list A), blen l1 = blen l2 -> length l1 = length l2.
Proof. intros. unfold blen in *. lia. Qed.

Lemma pairs_split : forall l1 l2 x y, length l1 = length l2 ->
  concat (map (fun t => vlq (fst t) ++ vlq (snd t)) l1) ++ x = concat (map (fun t => vlq (fst t) ++ vlq (snd t)) l2) ++ y -> l1 = l2 /\ x = y.
Proof.
  intros l1 l2 x y L E. apply (concat_split _ (fun t => vlq (fst t) ++ vlq (snd t)) (fun _ => True)); try assumption; try (apply Forall_forall; auto).
  intros [a b] [c d] u v _ _ K. cbn [fst snd] in K. rewrite <- !app_assoc in K. apply vlq_split in K as [-> K]. apply vlq_split in K as [-> K]. auto.
Qed.
Lemma output_split : forall G, readable_grammar G -> forall a b x y,
  (g_script G (no_script a) /\ g_registers G (no_registers a)) -> (g_script G (no_script b) /\ g_registers G (no_registers b)) ->
  n_output_bytes a ++ x = n_output_bytes b ++ y -> a = b /\ x = y.
Proof.
  intros G (Gs & Gr & _) [v1 s1 h1 t1 r1] [v2 s2 h2 t2 r2] x y [S1 R1] [S2 R2] E. unfold n_output_bytes in E.
  cbn [no_value no_script no_height no_tokens no_registers] in *. rewrite <- !app_assoc in E.
  apply vlq_split in E as [-> E]. apply (word_split _ Gs) in E as [-> E]; auto. apply vlq_split in E as [-> E].
  cbn [List.app] in E. assert (L : blen t1 = blen t2) by congruence. apply (f_equal (@tl N)) in E. cbn [tl] in E.
  apply pairs_split in E as [-> E]; [|apply blen_length; exact L]. apply (word_split _ Gr) in E as [-> E]; auto.
Qed.
Lemma input_split : forall G, readable_grammar G -> forall a b x y,
  (length (fst a) = 32%nat /\ g_extension G (snd a)) -> (length (fst b) = 32%nat /\ g_extension G (snd b)) ->
  (fst a ++ [0] ++ snd a) ++ x = (fst b ++ [0] ++ snd b) ++ y -> a = b /\ x = y.
Proof.
  intros G (_ & _ & Ge) [i1 e1] [i2 e2] x y [L1 E1] [L2 E2] E. cbn [fst snd] in *. rewrite <- !app_assoc in E.
  apply app_inj_length in E as [-> E]; [|congruence]. cbn [List.app] in E. apply (f_equal (@tl N)) in E. cbn [tl] in E.
  apply (word_split _ Ge) in E as [-> E]; auto.
Qed.
Lemma bytes_determine : forall G t1 t2, readable_grammar G -> readable G t1 -> readable G t2 -> n_bytes t1 = n_bytes t2 -> t1 = t2.
Proof.
  intros G [i1 d1 t1 o1] [i2 d2 t2 o2] Hg [A1 A2 A3 A4] [B1 B2 B3 B4] E. unfold n_bytes in E. cbn [nt_inputs nt_data nt_tokens nt_outputs] in *.
  apply vlq_split in E as [L E]. apply (concat_split _ _ _ (input_split G Hg)) in E as [-> E]; auto; [|apply blen_length; exact L].
  apply vlq_split in E as [L' E]. apply ids_split in E as [-> E]; auto; [|apply blen_length; exact L'].
  apply vlq_split in E as [L2 E]. apply ids_split in E as [-> E]; auto; [|apply blen_length; exact L2].
  apply vlq_split in E as [L3 E]. rewrite <- (app_nil_r (concat (map n_output_bytes o1))), <- (app_nil_r (concat (map n_output_bytes o2))) in E.
  apply (concat_split _ _ _ (output_split G Hg)) in E as [-> E]; auto. apply blen_length. exact L3.
Qed.
Lemma node_bytes : forall E d, n_bytes (node_tx E d) = bytes_to_sign E d.
Proof.
  intros E d. unfold n_bytes, bytes_to_sign, node_tx. cbn [nt_inputs nt_data nt_tokens nt_outputs].
  unfold blen. rewrite !map_length, !map_map. reflexivity.
Qed.

(** ** Signatures *)

Lemma signed_only : forall E key tr o st sig G, env_ok E -> history E key (tr ++ [o]) st -> signature o = Some sig -> readable_grammar G ->
  exists start body msg, session_of INS_SIGN tr = Some (start, body) /\ signed_message E start msg sig /\
    (Forall (fun x => output_complete x = true) (sx_outputs (description body)) -> readable G (node_tx E (description body)) ->
     n_bytes (node_tx E (description body)) = msg /\ forall t, readable G t -> n_bytes t = msg -> t = node_tx E (description body)).
Proof.
  intros E key tr o st sig G Henv H S Hg. destruct (signed_bytes _ _ _ _ _ _ Henv H S) as (start & body & A & B & C).
  exists start, body, (streamed_bytes E (description body)). do 2 (split; [assumption|]). intros F R. rewrite (C F), node_bytes. split; [reflexivity|].
  intros t Rt Et. apply (bytes_determine G); auto. rewrite node_bytes. exact Et.
Qed.
(** ** Boxes *)

Lemma box_only : forall E key1 tr1 st1 b1 key2 tr2 st2 b2 G, env_ok E -> history E key1 tr1 st1 -> attested_box E key1 tr1 b1 ->
  history E key2 tr2 st2 -> attested_box E key2 tr2 b2 -> no_collision E (box_bytes b1) (box_bytes b2) ->
  readable_grammar G -> readable_box G b1 -> readable_box G b2 -> box_id E b1 = box_id E b2 ->
  sb_tx_id b1 = sb_tx_id b2 /\ sb_index b1 = sb_index b2 /\ sb_value b1 = sb_value b2 /\ sb_tree b1 = sb_tree b2 /\ sb_height b1 = sb_height b2 /\
  sb_tokens b1 = sb_tokens b2 /\ (sb_regs_len b1 = sb_regs_len b2 -> b1 = b2).
Proof.
  intros E key1 tr1 st1 b1 key2 tr2 st2 b2 G Henv H1 A1 H2 A2 Hc (Gs & Gr & _) ((t1 & T1 & S1) & R1) ((t2 & T2 & S2) & R2) Hi.
  destruct (attested_wf _ _ _ _ _ Henv H1 A1) as [W1 C1]. destruct (attested_wf _ _ _ _ _ Henv H2 A2) as [W2 C2].
  assert (Tl : sb_tree b1 = sb_tree b2 -> sb_tree_len b1 = sb_tree_len b2).
  { unfold sb_complete in C1, C2. apply andb_true_iff in C1 as [C1 _], C2 as [C2 _]. apply andb_true_iff in C1 as [C1 _], C2 as [C2 _].
    destruct (sb_tree b1), (sb_tree b2); try discriminate. intro K. apply N.eqb_eq in C1, C2. congruence. }
  pose proof (id_tokens _ _ _ _ _ _ _ _ _ Henv H1 A1 H2 A2 Hc Hi) as Id.
  apply id_bytes in Hi; [|exact Hc]. unfold box_bytes in Hi. rewrite T1, T2 in Hi. apply vlq_split in Hi as [Ev Hi].
  apply (word_split _ Gs) in Hi as [Et Hi]; auto. assert (Eq : sb_tree b1 = sb_tree b2) by congruence.
  destruct (Id (Tl Eq)) as (_ & Eh & Ek & Eb). rewrite Eh, Ek in Hi. apply app_inv_head in Hi. cbn [List.app] in Hi. apply (f_equal (@tl N)) in Hi. cbn [tl] in Hi.
  apply app_inv_head in Hi. apply (word_split _ Gr) in Hi as [Er Hi]; auto.
  apply app_inj_length in Hi as [Ex Hi]; [|rewrite (sw_id _ W1), (sw_id _ W2); reflexivity].
  rewrite <- (app_nil_r (vlq (sb_index b1))), <- (app_nil_r (vlq (sb_index b2))) in Hi. apply vlq_split in Hi as [Ei _].
  do 6 (split; [assumption|]). exact Eb.
Qed.

(** ** The standard grammar *)

Lemma standard_readable : readable_grammar standard.
Proof.
  split; [|split]; cbn [g_script g_registers g_extension standard].
  - intros x y r s [(p & -> & L1 & _)|[(h & -> & L1)| ->]] [(q & -> & L2 & _)|[(k & -> & L2)| ->]] E; try reflexivity;
      try (exfalso; cbn [List.app FEE_TREE] in E; congruence).
    + rewrite <- !app_assoc in E. apply app_inv_head in E. apply app_inj_length in E as [-> _]; [reflexivity|congruence].
    + rewrite <- !app_assoc in E. apply app_inv_head in E. apply app_inj_length in E as [-> _]; [reflexivity|congruence].
  - intros x y r s [->|(l & -> & Hl)] [->|(k & -> & Hk)] E; try reflexivity; try (exfalso; cbn [List.app] in E; congruence).
    cbn [List.app] in E. assert (B : blen l = blen k) by congruence. apply (f_equal (skipn 3)) in E. cbn [skipn] in E.
    apply app_inj_length in E as [-> _]; [reflexivity|apply blen_length; exact B].
  - intros x y r s -> ->. reflexivity.
Qed.

(** ** A script that swallows the rest of its output *)

Definition SWALLOW : bytes := EVIL_TREE ++ vlq 501 ++ [0] ++ [1; 0x0e; 4].
Definition SWALLOWING : list event := TO_TREE SWALLOW ++ [UiApprove; sign_cmd 0x20 []; UiApprove].
Definition SWALLOW_BODY : list obs := match session_of INS_SIGN (removelast (trace SWALLOWING)) with Some (_, b) => b | None => [] end.
Definition SWALLOWED : n_tx :=
  let t := node_tx toy (description SWALLOW_BODY) in
  mk_nt (nt_inputs t) (nt_data t) (nt_tokens t) [mk_no 1000000000 EVIL_TREE 501 [] ([1; 0x0e; 4] ++ vlq 501 ++ [0; 0])].
Lemma swallowed : exists E key tr o st sig start body msg t, env_ok E /\ history E key (tr ++ [o]) st /\ signature o = Some sig /\
  session_of INS_SIGN tr = Some (start, body) /\ signed_message E start msg sig /\
  Forall (fun x => output_complete x = true /\ so_shown x = true /\ so_approved x = true) (sx_outputs (description body)) /\
  readable_grammar standard /\ readable standard t /\ n_bytes t = msg /\
  nt_outputs t <> nt_outputs (node_tx E (description body)) /\
  forall x y, In x (nt_outputs t) -> In y (nt_outputs (node_tx E (description body))) -> no_script x <> no_script y.
Proof.
  set (t := trace SWALLOWING). set (d0 := (BadApdu, []) : obs).
  assert (P : playable SWALLOWING = true) by (vm_compute; reflexivity).
  pose proof (trace_history _ P) as H. fold t in H.
  rewrite (app_removelast_last d0) in H by (vm_compute; discriminate).
  destruct (signature (last t d0)) as [sig|] eqn:S; [|vm_compute in S; discriminate S].
  destruct (signed_bytes _ _ _ _ _ _ toy_ok H S) as (start & body & O & M & _).
  assert (D : body = SWALLOW_BODY) by (unfold SWALLOW_BODY; fold t; rewrite O; reflexivity).
  exists toy, TOY_KEY, (removelast t), (last t d0), (final SWALLOWING), sig, start, body, (streamed_bytes toy (description body)), SWALLOWED. rewrite D in *.
  split; [exact toy_ok|]. do 4 (split; [assumption|]).
  assert (Os : exists x, sx_outputs (description SWALLOW_BODY) = [x] /\ output_complete x = true /\ so_shown x = true /\ so_approved x = true /\ so_dest x = Some (SD_TREE SWALLOW)).
  { destruct (sx_outputs (description SWALLOW_BODY)) as [|x [|]] eqn:Ex; try (vm_compute in Ex; discriminate Ex).
    exists x. vm_compute in Ex. injection Ex as <-. do 4 (split; [vm_compute; reflexivity|]). vm_compute. reflexivity. }
  destruct Os as (x & Ox & X1 & X2 & X3 & X4).
  split; [rewrite Ox; constructor; [auto|constructor]|]. split; [exact standard_readable|]. split.
  { constructor.
    - apply Forall_forall. intros i Hi. vm_compute in Hi. destruct Hi as [<-|[]]. split; reflexivity.
    - constructor.
    - apply Forall_forall. intros i Hi. vm_compute in Hi. destruct Hi as [<-|[]]. reflexivity.
    - constructor; [|constructor]. split.
      + left. exists (2 :: repeat 0x66 32). split; [reflexivity|]. split; [reflexivity|left; reflexivity].
      + right. exists (vlq 501 ++ [0; 0]). split; [vm_compute; reflexivity|vm_compute; reflexivity]. }
  split; [vm_compute; reflexivity|].
  assert (Ns : forall a b, In a (nt_outputs SWALLOWED) -> In b (nt_outputs (node_tx toy (description SWALLOW_BODY))) -> no_script a <> no_script b).
  { intros a b Ha Hb. unfold node_tx in Hb. cbn [nt_outputs] in Hb. rewrite Ox in Hb. destruct Hb as [<-|[]]. destruct Ha as [<-|[]].
    unfold node_output. rewrite X4. cbn [no_script dest_tree]. intro K. apply (f_equal (@length N)) in K. vm_compute in K. discriminate K. }
  split; [|exact Ns]. intro K. unfold node_tx in K, Ns. cbn [nt_outputs] in K, Ns. rewrite Ox in K, Ns.
  apply (Ns _ _ (or_introl eq_refl) (or_introl eq_refl)). apply (f_equal (fun l => no_script (hd (mk_no 0 [] 0 [] []) l))) in K. exact K.
Qed.
