(** Preservation of the signing invariant: script chunks of an output. *)
From Verif Require Import Lib Gve CodecProofs Env SpecVlq SpecTree SpecTx SpecAmounts Bip32 ErgoTree TxTable TxBox TxInput
  TxFull Amounts OutputInfo InputFrame P2pkOp App TreeProofs BoxProofs AmountProofs SignInv SignInput SignData SignOutput SignBox.

#[local] Arguments N.eqb : simpl never.
#[local] Arguments N.ltb : simpl never.
#[local] Arguments N.leb : simpl never.
#[local] Arguments N.sub : simpl never.
#[local] Arguments blen : simpl never.
#[local] Arguments num : simpl never.
#[local] Arguments slice : simpl never.

Definition first_type (t : bytes) (fin : bool) : out_type := oi_type (classify_first_chunk (output_info_init 0) t fin).
Lemma classify_shape : forall c t fin,
  classify_first_chunk c t fin =
    mk_oi (oi_value c) (oi_tokens c) (first_type t fin)
          (match first_type t fin with OT_SCRIPT _ => oi_tree_set c | _ => true end) (oi_box_finished c) /\
  (first_type t fin = OT_SCRIPT [] \/ (fin = true /\ ((exists k, first_type t fin = OT_ADDRESS k) \/ exists k, first_type t fin = OT_SCRIPT_HASH k) /\
     (length t < 50)%nat)).
Proof.
  intros c t fin. unfold first_type, classify_first_chunk.
  destruct (Nat.eqb_spec (length t) ERGO_TREE_P2PK_LEN) as [L|L], (Nat.eqb_spec (length t) ERGO_TREE_P2SH_LEN) as [L2|L2],
    fin; cbn [andb]; unfold ERGO_TREE_P2PK_LEN, ERGO_TREE_P2SH_LEN in *; try lia;
    repeat match goal with |- context [match ?x with Some _ => _ | None => _ end] => destruct x end;
    cbn; (split; [reflexivity|]); auto; right; split; auto; split; eauto; lia.
Qed.
Lemma first_type_long : forall t fin, (50 <= length t)%nat -> first_type t fin = OT_SCRIPT [].
Proof. intros t fin H. destruct (proj2 (classify_shape (output_info_init 0) t fin)) as [?|(_ & _ & L)]; [assumption|lia]. Qed.
Lemma first_type_partial : forall t, first_type t false = OT_SCRIPT [].
Proof. intro t. destruct (proj2 (classify_shape (output_info_init 0) t false)) as [?|(L & _)]; [assumption|discriminate]. Qed.

Definition add_tree (data : bytes) (o : s_output) : s_output :=
  set_dest (fun t => match t with None => SD_TREE data | Some (SD_TREE t) => SD_TREE (t ++ data) | Some x => x end) o.

Lemma add_tree_dest : forall E o data, tree_complete o = false ->
  so_dest (add_tree data o) = Some (SD_TREE (o_tree E o ++ data)).
Proof.
  intros E o data H. unfold add_tree, set_dest, o_tree, tree_complete in *. cbn.
  destruct (so_dest o) as [[t| |p]|]; try discriminate; reflexivity.
Qed.
Lemma add_tree_done : forall E o data, tree_complete o = false ->
  tree_complete (add_tree data o) = (blen (o_tree E o ++ data) =? so_tree_len o).
Proof. intros E o data H. unfold tree_complete. rewrite (add_tree_dest E) by assumption. reflexivity. Qed.
Lemma add_tree_g : forall E o data, tree_complete o = false ->
  g_of E (add_tree data o) = g_set_tree (g_of E o) BT_TREE (o_tree E o ++ data) (blen (o_tree E o ++ data) =? so_tree_len o).
Proof.
  intros E o data H. unfold g_of, g_set_tree. rewrite (add_tree_done E) by assumption.
  unfold o_type, o_tree at 1. rewrite (add_tree_dest E) by assumption. reflexivity.
Qed.

Lemma tree_info_ok : forall E d o data i i' d',
  oinfo_rel E d o i -> out_wf E (match sx_head d with Some h => sh_tokens h | None => 0 end) o -> tree_complete o = false ->
  table_of d' = table_of d -> sx_tokens d' = sx_tokens d ->
  output_info_add_tree_chunk (e_blake E) (oi_finish E (output_complete (add_tree data o)) i) data
    (blen (o_tree E o ++ data) =? so_tree_len o) = (SW_OK, i') ->
  oinfo_rel E d' (add_tree data o) i'.
Proof.
  intros E d o data i i' d' R W Hc Ht Hk H. pose proof (ri_value _ _ _ _ R) as R1. pose proof (ri_tokens _ _ _ _ R) as R2.
  pose proof (ri_type _ _ _ _ R) as R3. pose proof (ri_tree_set _ _ _ _ R) as R4. pose proof (ri_finished _ _ _ _ R) as R5.
  destruct i as [iv it ity its ibf]. cbn [oi_value oi_tokens oi_type oi_tree_set oi_box_finished] in *.
  assert (Of : output_complete o = false) by (unfold output_complete; rewrite Hc; reflexivity).
  rewrite Hc in R4. rewrite Of in R5. subst its ibf.
  set (fin := output_complete (add_tree data o)) in *. set (flag := blen (o_tree E o ++ data) =? so_tree_len o) in *.
  assert (Hff : fin = true -> flag = true).
  { unfold fin, flag, output_complete. rewrite (add_tree_done E) by assumption. destruct (_ =? so_tree_len o); [reflexivity|discriminate]. }
  assert (Hfi : oi_finish E fin (mk_oi iv it ity false false) = mk_oi iv it ity false fin).
  { unfold oi_finish. destruct fin; reflexivity. }
  rewrite Hfi in H. clear Hfi.
  assert (K : exists ity' , i' = mk_oi iv it ity' flag fin /\ ity' = tree_type E (add_tree data o) (o_tree E o ++ data)).
  { unfold tree_type. rewrite (add_tree_done E) by assumption. fold flag. fold fin. unfold script_type. fold fin.
    fold (first_type (o_tree E o ++ data) true).
    unfold output_info_add_tree_chunk in H. unfold out_type_of in R3. unfold tree_complete in Hc.
    unfold o_tree in *. destruct (so_dest o) as [[t0| |p]|] eqn:Ed; try discriminate.
    - cbn [dest_tree] in *. assert (R3' : ity = OT_SCRIPT t0).
      { rewrite R3. unfold tree_type, tree_complete. rewrite Ed, Hc. reflexivity. }
      clear R3. subst ity. cbn [oi_type oi_tree_set oi_set_type] in H.
      assert (L : 255 <= blen t0) by (apply (ow_chunk _ _ _ W); [assumption|unfold tree_complete; rewrite Ed; assumption]).
      rewrite (first_type_long (t0 ++ data)) by (rewrite app_length; unfold blen in L; lia).
      unfold maybe_finished_sw, maybe_finished, output_info_is_finished in H. cbn in H.
      destruct flag; cbn in H.
      + destruct fin; cbn in H; injection H as <-; eexists; split; reflexivity.
      + destruct fin; [discriminate (Hff eq_refl)|]. cbn in H. injection H as <-; eexists; split; reflexivity.
    - cbn [app] in *. rewrite R3 in H. clear R3.
      cbn [oi_type oi_tree_set] in H. 
      destruct (classify_shape (mk_oi iv it OT_UNKNOWN false fin) data flag) as [Sh Cs].
      rewrite Sh in H. cbn [oi_value oi_tokens oi_type oi_tree_set oi_box_finished] in H.
      destruct Cs as [Cs|(Ef & Cs & _)].
      + rewrite Cs in H. cbn in H. unfold maybe_finished_sw, maybe_finished, output_info_is_finished in H.
        destruct flag; cbn in H.
        * rewrite Cs. destruct fin; cbn in H; injection H as <-; eexists; split; reflexivity.
        * destruct fin; [discriminate (Hff eq_refl)|]. cbn in H. injection H as <-; eexists; split; reflexivity.
      + rewrite Ef in *. destruct Cs as [[k Cs]|[k Cs]]; rewrite Cs in H |- *; cbn in H;
          unfold maybe_finished_sw, maybe_finished, output_info_is_finished in H; cbn in H; destruct fin; cbn in H;
          injection H as <-; eexists; split; reflexivity. }
  destruct K as (ity' & -> & Ety). constructor; cbn [oi_value oi_tokens oi_type oi_tree_set oi_box_finished].
  - exact R1.
  - rewrite Ht. eapply oi_rel_ext; [|exact R2]. intro x. unfold tokens_of. rewrite Hk. reflexivity.
  - unfold out_type_of. rewrite (add_tree_dest E) by assumption. assumption.
  - rewrite (add_tree_done E) by assumption. reflexivity.
  - reflexivity.
Qed.

Lemma amounts_same_outs : forall d a pre o o', sx_outputs d = pre ++ [o] -> amounts_rel d a ->
  (if is_fee o' then so_value o' else 0) = (if is_fee o then so_value o else 0) ->
  (if is_change o' then so_value o' else 0) = (if is_change o then so_value o else 0) ->
  tokens_of d o' = tokens_of d o ->
  amounts_rel (with_outs d (pre ++ [o'])) a.
Proof.
  intros d a pre o o' Ho A H1 H2 H3. rewrite <- (with_outs_same d), Ho in A.
  destruct A as [A1 A2 A3 A4 A5]. constructor.
  - rewrite A1, !fees_snoc, H1. reflexivity.
  - rewrite !fees_snoc, !change_snoc, ?H1, ?H2 in *. exact A2.
  - exact A3.
  - exact A4.
  - eapply am_rel_ext; [|exact A5]. intro x. unfold balance, output_tokens. cbn [with_outs on_outputs sx_outputs input_tokens sx_inputs].
    rewrite !map_app, !concat_app. cbn [map concat]. rewrite !app_nil_r, !amount_of_app.
    change (tokens_of (with_outs d (pre ++ [o']))) with (tokens_of d). change (tokens_of (with_outs d (pre ++ [o]))) with (tokens_of d).
    rewrite H3. reflexivity.
Qed.

Lemma add_tree_ok : forall E s d h op data op',
  bytes_ok data = true -> wf E d h -> op_tx E s d h op -> settled d (ss_path s) (sx_outputs d) ->
  p2pk_add_output_tree_chunk E op data = Ok op' ->
  let d' := describe_cmd d 0x16 data in
  wf E d' h /\ op_tx E s d' h op' /\ fresh d' (ss_path s) (sx_outputs d').
Proof.
  intros E s d h op data op' Hb W T S H d'.
  unfold p2pk_add_output_tree_chunk in H. destruct (op_state_of op) eqn:Est; try discriminate.
  assert (Hp : op_phase d h = OP_OUTPUTS_STARTED) by (destruct T as (_ & Hs & _); congruence).
  destruct (current_ok E s d h W Hp) as (pre & o & C). pose proof C as [C1 C2 C3 C4 C5 C6 C7 C8 C9 C10].
  destruct (op_union_of op) as [|t|] eqn:Eu; try discriminate.
  destruct (op_tx_fs _ _ _ _ _ _ T Eu) as [Efs Hli]. rewrite Efs in H.
  destruct (full_add_box_ergo_tree (op_box_cb E) (fs_of E s d h (op_amounts op, tx_output t)) data) as [r fs'] eqn:Ef.
  unfold full_add_box_ergo_tree in Ef. cbn [fs_of fs_full full_of fl_state] in Ef. rewrite C6 in Ef.
  fold (fs_of E s d h (op_amounts op, tx_output t)) in Ef.
  assert (Hr : res_pass r = true).
  { destruct r; try discriminate; reflexivity. }
  destruct (on_box_ok _ _ _ _ _ _ _ _ _ _ _ W C Ef Hr) as (r1 & x & Hc & Hr1 & Hrr & Hcb & Hend).
  specialize (Hrr eq_refl). subst r1.
  destruct (g_tree_ok _ _ _ _ _ _ _ (ow_g _ _ _ C9) Hc Hr) as (G1 & G2 & G3 & G4 & a1 & G5 & G6 & G7).
  change (g_tree (g_of E o)) with (o_tree E o) in *. change (g_tree_len (g_of E o)) with (so_tree_len o) in *.
  change (g_done (g_of E o)) with (tree_complete o) in G1. change (g_value (g_of E o)) with (so_value o) in *.
  set (flag := blen (o_tree E o ++ data) =? so_tree_len o) in *.
  assert (Of : output_complete o = false) by (unfold output_complete; rewrite G1; reflexivity).
  rewrite <- (add_tree_g E) in G3, G6, G7 by assumption. rewrite g_of_finished in G6.
  set (o' := add_tree data o) in *.
  assert (Hfo : flag = false -> output_complete o' = false).
  { intro X. unfold output_complete, o'. rewrite (add_tree_done E) by assumption. fold flag. rewrite X. reflexivity. }
  assert (Hs' : fs' = fs_of E s (with_outs d (pre ++ [o'])) h (bs_cb x)).
  { apply Hend; [assumption|assumption|]. intro X. apply Hfo. rewrite X in G2. destruct flag; [discriminate|reflexivity]. }
  pose proof (w_head _ _ _ W) as Wh.
  assert (Ha1 : a1 = (op_amounts op, tx_output t)).
  { destruct flag; [|assumption]. destruct T as (_ & _ & _ & Ha & _). destruct Ha as [A1 A2 A3 A4 A5].
    destruct (type_cb_ok _ _ _ _ _ G5) as [Q1 Q2]; cbn [fst snd] in *.
    - unfold two64 in *. lia.
    - rewrite A1. unfold two64 in *. lia.
    - apply (gw_value _ (ow_g _ _ _ C9)).
    - destruct a1. cbn in *. congruence. }
  rewrite Ha1 in G6.
  destruct (last_info_cur _ _ _ _ _ Hli C1) as (i & Ei & Ri).
  destruct (fin_cb_ok _ _ _ _ _ i G6 Ei) as [Q1 Q2]. cbn [fst snd] in Q1.
  assert (H' : bind (output_call (op_put op t fs') (fun o => output_info_add_tree_chunk (e_blake E) o data flag)) check_tx_finished = Ok op').
  { rewrite G2 in H. destruct flag; exact H. }
  clear H. apply bind_ok in H' as (op1 & H1 & H2).
  apply output_call_ok in H1 as (t1 & i1 & i' & K1 & K2 & K3 & ->).
  cbn [op_put op_union_of] in K1. injection K1 as <-. cbn [tx_output tx_full tx_last_approved] in *.
  rewrite Hs' in *. cbn [fs_of fs_cb fs_full] in *. rewrite Q2 in K2. injection K2 as <-.
  assert (Ed : d' = with_outs d (pre ++ [o'])).
  { unfold d', describe_cmd. apply upd_outs. assumption. }
  rewrite Ed.
  assert (Fo : is_fee o' = is_fee o /\ is_change o' = is_change o).
  { unfold is_fee, is_change, o'. rewrite (add_tree_dest E) by assumption. unfold tree_complete in G1.
    destruct (so_dest o) as [[?| |?]|]; try discriminate; auto. }
  destruct Fo as [Fo1 Fo2].
  eapply output_end; try eassumption; try reflexivity.
  - constructor.
    + exact G3.
    + intros t0 Hd Hc'. unfold o' in Hd, Hc'. rewrite (add_tree_dest E) in Hd by assumption. injection Hd as <-.
      rewrite (add_tree_done E) in Hc' by assumption. fold flag in Hc'. specialize (G4 Hc'). rewrite blen_app. lia.
    + intros p Hd. unfold o' in Hd. rewrite (add_tree_dest E) in Hd by assumption. discriminate.
    + apply (ow_tokens _ _ _ C9).
  - rewrite Q1. destruct T as (_ & _ & _ & Ha & _). apply (amounts_same_outs _ _ _ _ _ C1 Ha); rewrite ?Fo1, ?Fo2; reflexivity.
  - eapply tree_info_ok; [exact Ri| |assumption|reflexivity|reflexivity|exact K3]. rewrite Wh. exact C9.
Qed.
