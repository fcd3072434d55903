From Verif Require Import Lib ErgoTree OutputInfo SpecTree.

Lemma p2pk_tree_inj : forall a b t, is_p2pk_tree a t -> is_p2pk_tree b t -> a = b.
Proof. intros a b t (Ea & _) (Eb & _). rewrite Ea in Eb. apply app_inv_head in Eb. assumption. Qed.
Lemma p2sh_tree_inj : forall a b t, is_p2sh_tree a t -> is_p2sh_tree b t -> a = b.
Proof.
  intros a b t (Ea & La) (Eb & Lb). rewrite Ea in Eb. apply app_inv_head in Eb.
  apply app_inv_length in Eb; [tauto|congruence].
Qed.
Lemma p2pk_not_p2sh : forall a b t, is_p2pk_tree a t -> is_p2sh_tree b t -> False.
Proof.
  intros a b t (Ea & La & _) (Eb & Lb). apply (f_equal (@length N)) in Ea, Eb.
  rewrite !app_length in *. rewrite La in Ea. rewrite Lb in Eb. simpl in *. congruence.
Qed.
Lemma p2pk_tree_length : forall a t, is_p2pk_tree a t -> length t = 36%nat.
Proof. intros a t (-> & L & _). rewrite app_length, L. reflexivity. Qed.
Lemma p2sh_tree_length : forall a t, is_p2sh_tree a t -> length t = 44%nat.
Proof. intros a t (-> & L). rewrite !app_length, L. reflexivity. Qed.

Lemma hd_nth : forall (l : bytes) n d, nth n l d = hd d (skipn n l).
Proof. induction l; destruct n; intro d; simpl; auto. Qed.
Lemma parse_p2pk_spec : forall tree pk, length tree = 36%nat ->
  (ergo_tree_parse_p2pk tree = Some pk <-> is_p2pk_tree pk tree).
Proof.
  intros tree pk L. unfold ergo_tree_parse_p2pk, is_p2pk_tree.
  assert (Lp : length (skipn 3 tree) = 33%nat) by (rewrite skipn_length; lia).
  destruct (bytes_eqb (firstn 3 tree) P2PK_PREFIX) eqn:E; cbn [negb].
  - apply bytes_eqb_eq in E. rewrite hd_nth.
    pose proof (firstn_skipn 3 tree) as Hs. rewrite E in Hs.
    rewrite (firstn_all2 (skipn 3 tree)) by lia.
    destruct (N.eqb_spec (hd 0 (skipn 3 tree)) 2) as [E2|E2]; destruct (N.eqb_spec (hd 0 (skipn 3 tree)) 3) as [E3|E3]; cbn [negb andb].
    1-3: split; [intro H; inv H; repeat split; [symmetry; exact Hs|assumption|tauto]|];
      intros (Ht & _); f_equal; rewrite Ht; reflexivity.
    split; [discriminate|]. intros (Ht & _ & H). exfalso. rewrite Ht in E2, E3. cbn [skipn app] in E2, E3. tauto.
  - split; [discriminate|]. intros (-> & _). apply bytes_eqb_neq in E. exfalso. apply E. reflexivity.
Qed.
Lemma parse_p2sh_spec : forall tree h, length tree = 44%nat ->
  (ergo_tree_parse_p2sh tree = Some h <-> is_p2sh_tree h tree).
Proof.
  intros tree h L. unfold ergo_tree_parse_p2sh, is_p2sh_tree. fold P2SH_PREFIX. fold P2SH_SUFFIX.
  assert (S41 : skipn 41 tree = skipn 24 (skipn 17 tree)).
  { clear. do 17 (destruct tree as [|? tree]; [reflexivity|]). reflexivity. }
  destruct (bytes_eqb (firstn 17 tree) P2SH_PREFIX) eqn:E; cbn [negb].
  - apply bytes_eqb_eq in E. pose proof (firstn_skipn 17 tree) as Hs. rewrite E in Hs.
    pose proof (firstn_skipn 24 (skipn 17 tree)) as Hs2. rewrite <- S41 in Hs2.
    rewrite (firstn_all2 (skipn 41 tree)) by (rewrite skipn_length; lia).
    destruct (bytes_eqb (skipn 41 tree) P2SH_SUFFIX) eqn:E2; cbn [negb].
    + apply bytes_eqb_eq in E2. rewrite E2 in Hs2. split.
      * intro H. assert (h = firstn 24 (skipn 17 tree)) as -> by congruence. split; [|apply firstn_length_le; rewrite skipn_length; lia].
        rewrite Hs2. symmetry. exact Hs.
      * intros (Ht & Lh). f_equal. rewrite <- Hs in Ht. apply app_inv_head in Ht. rewrite Ht.
        rewrite firstn_app, Lh, Nat.sub_diag, <- Lh, firstn_all. apply app_nil_r.
    + split; [discriminate|]. intros (Ht & Lh). apply bytes_eqb_neq in E2. exfalso. apply E2.
      rewrite S41. rewrite <- Hs in Ht. apply app_inv_head in Ht. rewrite Ht.
      rewrite skipn_app, Lh, Nat.sub_diag, <- Lh, skipn_all. reflexivity.
  - split; [discriminate|]. intros (-> & _). apply bytes_eqb_neq in E. exfalso. apply E. reflexivity.
Qed.

Lemma compress_spec : forall raw, length raw = 65%nat -> compress raw = compressed raw.
Proof.
  intros raw L. unfold compress, compressed.
  replace (last raw 0) with (nth 64 raw 0).
  2:{ do 65 (destruct raw as [|? raw]; [discriminate|]). destruct raw; [reflexivity|discriminate]. }
  set (y := nth 64 raw 0).
  replace (N.land y 1 =? 0) with (negb (N.odd y)).
  2:{ change 1 with (N.ones 1). rewrite N.land_ones. rewrite <- N.bit0_odd, N.testbit_eqb.
      change (2 ^ 0) with 1. change (2 ^ 1) with 2. rewrite N.div_1_r.
      pose proof (N.mod_lt y 2). destruct (N.eqb_spec (y mod 2) 1); destruct (N.eqb_spec (y mod 2) 0); simpl; lia. }
  destruct (N.odd y); destruct raw; reflexivity.
Qed.
Lemma compressed_length : forall raw, length raw = 65%nat -> length (compressed raw) = 33%nat.
Proof.
  intros raw L. unfold compressed. cbn [length]. rewrite firstn_length_le; [reflexivity|]. destruct raw; cbn [length tl] in *; lia.
Qed.
Lemma change_tree_is_p2pk : forall raw, length raw = 65%nat ->
  is_p2pk_tree (compressed raw) (ergo_tree_generate_p2pk raw).
Proof.
  intros raw L. unfold ergo_tree_generate_p2pk. rewrite compress_spec by assumption. split; [reflexivity|].
  split; [apply compressed_length; assumption|]. unfold compressed. cbn [hd]. destruct (N.odd _); tauto.
Qed.

(** What a tree sent in one (hence final) chunk is taken for. *)
Lemma classify_spec : forall blake o tree r, oi_type o = OT_UNKNOWN -> oi_tree_set o = false ->
  oi_box_finished o = false ->
  output_info_add_tree_chunk blake o tree true = r ->
  exists o', r = (SW_OK, o') /\ oi_tree_set o' = true /\ oi_box_finished o' = false /\
    oi_value o' = oi_value o /\ oi_tokens o' = oi_tokens o /\
    (forall pk, oi_type o' = OT_ADDRESS pk <-> is_p2pk_tree pk tree) /\
    (forall h, oi_type o' = OT_SCRIPT_HASH h <-> is_p2sh_tree h tree) /\
    ((exists pk, is_p2pk_tree pk tree) \/ (exists h, is_p2sh_tree h tree) \/ oi_type o' = OT_SCRIPT tree).
Proof.
  intros blake o tree r Ht Hs Hf <-. unfold output_info_add_tree_chunk. rewrite Ht, Hs.
  assert (HP : forall pk h, is_p2pk_tree pk tree -> is_p2sh_tree h tree -> False)
    by (intros; eapply p2pk_not_p2sh; eassumption).
  assert (H36 : forall pk, is_p2pk_tree pk tree -> length tree = ERGO_TREE_P2PK_LEN)
    by (intros pk Hp; eapply p2pk_tree_length; eassumption).
  assert (H44 : forall h, is_p2sh_tree h tree -> length tree = ERGO_TREE_P2SH_LEN)
    by (intros h Hp; eapply p2sh_tree_length; eassumption).
  assert (Hscript : (forall pk, ~ is_p2pk_tree pk tree) -> (forall h, ~ is_p2sh_tree h tree) ->
    forall o', o' = oi_set_tree_set (oi_set_type (oi_set_type o (OT_SCRIPT [])) (OT_SCRIPT ([] ++ tree))) ->
    exists o'', maybe_finished_sw blake o' = (SW_OK, o'') /\ oi_tree_set o'' = true /\
    oi_box_finished o'' = false /\
    oi_value o'' = oi_value o /\ oi_tokens o'' = oi_tokens o /\
    (forall pk, oi_type o'' = OT_ADDRESS pk <-> is_p2pk_tree pk tree) /\
    (forall h, oi_type o'' = OT_SCRIPT_HASH h <-> is_p2sh_tree h tree) /\
    ((exists pk, is_p2pk_tree pk tree) \/ (exists h, is_p2sh_tree h tree) \/ oi_type o'' = OT_SCRIPT tree)).
  { intros N1 N2 o' ->. exists (oi_set_tree_set (oi_set_type (oi_set_type o (OT_SCRIPT [])) (OT_SCRIPT ([] ++ tree)))).
    unfold maybe_finished_sw, maybe_finished, output_info_is_finished. cbn. rewrite Hf.
    split; [reflexivity|]. do 4 (split; [assumption || reflexivity|]).
    split; [|split].
    - intro pk. split; [discriminate|]. intro H. exfalso. eapply N1. exact H.
    - intro h. split; [discriminate|]. intro H. exfalso. eapply N2. exact H.
    - right. right. reflexivity. }
  unfold classify_first_chunk. destruct (Nat.eqb (length tree) ERGO_TREE_P2PK_LEN) eqn:E1; cbn [andb].
  - apply Nat.eqb_eq in E1.
    replace (Nat.eqb (length tree) ERGO_TREE_P2SH_LEN) with false by (rewrite E1; reflexivity). cbn [andb].
    destruct (ergo_tree_parse_p2pk tree) as [pk|] eqn:P.
    + apply parse_p2pk_spec in P; [|assumption].
      exists (oi_set_tree_set (oi_set_type o (OT_ADDRESS pk))).
      unfold maybe_finished_sw, maybe_finished, output_info_is_finished. cbn. rewrite Hf.
      split; [reflexivity|]. do 4 (split; [assumption || reflexivity|]). split; [|split].
      * intro pk'. split; intro H; [inv H; exact P|]. f_equal. eapply p2pk_tree_inj; eassumption.
      * intro h. split; [discriminate|]. intro H. exfalso. eapply HP; eassumption.
      * left. exists pk. exact P.
    + apply Hscript; [| |destruct o; cbn in *; subst; reflexivity].
      * intros pk H. apply parse_p2pk_spec in H; [congruence|assumption].
      * intros h H. apply H44 in H. rewrite E1 in H. discriminate.
  - apply Nat.eqb_neq in E1. destruct (Nat.eqb (length tree) ERGO_TREE_P2SH_LEN) eqn:E2; cbn [andb].
    + apply Nat.eqb_eq in E2. destruct (ergo_tree_parse_p2sh tree) as [h|] eqn:P.
      * apply parse_p2sh_spec in P; [|assumption].
        exists (oi_set_tree_set (oi_set_type o (OT_SCRIPT_HASH h))).
        unfold maybe_finished_sw, maybe_finished, output_info_is_finished. cbn. rewrite Hf.
        split; [reflexivity|]. do 4 (split; [assumption || reflexivity|]). split; [|split].
        -- intro pk. split; [discriminate|]. intro H. exfalso. eapply HP; eassumption.
        -- intro h'. split; intro H; [inv H; exact P|]. f_equal. eapply p2sh_tree_inj; eassumption.
        -- right. left. exists h. exact P.
      * apply Hscript; [| |destruct o; cbn in *; subst; reflexivity].
        -- intros pk H. apply E1. eapply H36. exact H.
        -- intros h H. apply parse_p2sh_spec in H; [congruence|assumption].
    + apply Nat.eqb_neq in E2. apply Hscript; [| |destruct o; cbn in *; subst; reflexivity].
      * intros pk H. apply E1. eapply H36. exact H.
      * intros h H. apply E2. eapply H44. exact H.
Qed.
