(** Preservation of the signing invariant: fee and change scripts, tokens, registers. *)
From Verif Require Import Lib Gve CodecProofs Env SpecVlq SpecTree SpecTx SpecAmounts Bip32 ErgoTree TxTable TxBox TxInput
  TxFull Amounts OutputInfo InputFrame P2pkOp App TreeProofs BoxProofs AmountProofs SignInv SignInput SignData SignOutput SignBox SignTree.

#[local] Arguments N.eqb : simpl never.
#[local] Arguments N.ltb : simpl never.
#[local] Arguments N.leb : simpl never.
#[local] Arguments N.sub : simpl never.
#[local] Arguments blen : simpl never.
#[local] Arguments num : simpl never.
#[local] Arguments slice : simpl never.

Definition whole_call {A} (type : box_type) (tree : bytes) (cb : box_callbacks A) (x : bs A) : res * bs A :=
  match bx_state (bs_box x) with
  | BX_INITIALIZED =>
      ergo_tree_added cb (bs_with_box (bs_feed x tree) (box_set_type (bs_box (bs_feed x tree)) type))
  | _ => box_res_error x R_BAD_STATE
  end.
Definition whole_dest (type : box_type) (D : destination) (T : out_type) : Prop :=
  match type with
  | BT_TREE => False
  | BT_FEE => D = SD_FEE /\ T = OT_MINERS_FEE
  | BT_CHANGE => exists p, D = SD_CHANGE p /\ T = OT_BIP32 p
  end.

Lemma amounts_value_bounds : forall d a, amounts_rel d a -> am_value a < two64 /\ am_fee a < two64.
Proof. intros d a [A1 A2 A3 A4 A5]. unfold two64 in *. lia. Qed.

Lemma whole_ok : forall E s d h op op1 op' type tree D T,
  wf E d h -> op_tx E s d h op -> settled d (ss_path s) (sx_outputs d) ->
  op_state_of op = OP_OUTPUTS_STARTED ->
  whole_dest type D T -> dest_tree E D = tree -> (forall p, D = SD_CHANGE p -> change_ok E p) ->
  tx_call op (fun x => match fl_state (fs_full x) with
                       | FL_OUTPUTS_STARTED => on_box (op_box_cb E) x (whole_call type tree) false
                       | _ => full_res_error x R_BAD_STATE
                       end) = Ok op1 ->
  bind (output_call op1 (fun i => match oi_type i with
                                  | OT_UNKNOWN => maybe_finished_sw (e_blake E) (oi_set_tree_set (oi_set_type i T))
                                  | _ => (SW_BAD_STATE, i)
                                  end)) check_tx_finished = Ok op' ->
  let d' := on_outputs (upd_last (set_dest (fun _ => D))) d in
  wf E d' h /\ op_tx E s d' h op' /\ fresh d' (ss_path s) (sx_outputs d').
Proof.
  intros E s d h op op1 op' type tree D T W X S Est HD Htree Hch H H2 d'.
  assert (Hp : op_phase d h = OP_OUTPUTS_STARTED) by (destruct X as (_ & Hs & _); congruence).
  destruct (current_ok E s d h W Hp) as (pre & o & C). pose proof C as [C1 C2 C3 C4 C5 C6 C7 C8 C9 C10].
  apply tx_call_ok in H as (t & r & fs' & Eu & Ef & Hr & ->).
  destruct (op_tx_fs _ _ _ _ _ _ X Eu) as [Efs Hli]. rewrite Efs in Ef. cbv beta in Ef.
  cbn [fs_of fs_full full_of fl_state] in Ef. rewrite C6 in Ef.
  fold (fs_of E s d h (op_amounts op, tx_output t)) in Ef.
  destruct (on_box_ok _ _ _ _ _ _ _ _ _ _ _ W C Ef Hr) as (r1 & x & Hc & Hr1 & _ & Hcb & Hend).
  destruct (last_info_cur _ _ _ _ _ Hli C1) as (i & Ei & Ri).
  apply bind_ok in H2 as (op2 & H1 & H2).
  apply output_call_ok in H1 as (t1 & i1 & i' & K1 & K2 & K3 & ->).
  cbn [op_put op_union_of] in K1. injection K1 as <-. cbn [tx_output tx_full tx_last_approved] in *.
  assert (Etype : type <> BT_TREE) by (intros ->; exact HD).
  (* a script was started: refused *)
  assert (Hti : tree_complete o = false /\ so_dest o = None).
  { destruct (g_done (g_of E o)) eqn:Ed.
    { exfalso. unfold whole_call, gs in Hc. cbn [bs_box gstate bx_state] in Hc. unfold g_box_state in Hc. rewrite Ed in Hc.
      cbn [negb] in Hc. unfold box_res_error in Hc.
      destruct (_ =? _); cbn [negb] in Hc; [destruct (_ =? _); cbn [negb] in Hc|]; injection Hc as <- <-; discriminate. }
    change (g_done (g_of E o)) with (tree_complete o) in Ed. split; [assumption|].
    destruct (so_dest o) as [dd|] eqn:Edd; [exfalso|reflexivity].
    unfold whole_call in Hc. change (bx_state (bs_box (gs (g_of E o) (ss_prefix s ++ out_base E d h pre) (op_amounts op, tx_output t))))
      with (g_box_state (g_of E o)) in Hc. unfold g_box_state in Hc. change (g_done (g_of E o)) with (tree_complete o) in Hc.
    rewrite Ed in Hc. cbn [negb] in Hc. apply tree_added_cbs in Hc as (a1 & fin & G1 & G2); [|assumption].
    cbn [bs_cb bs_with_box bs_feed gs] in G1.
    pose proof (type_cb_snd _ _ _ _ _ G1) as G3. cbn [snd] in G3. rewrite Ei in G3.
    destruct (fin_cb_ok _ _ _ _ _ i G2 G3) as [_ G4]. rewrite <- Hcb, K2 in G4. injection G4 as ->.
    assert (Ety : oi_type (oi_finish E fin i) = oi_type i).
    { unfold oi_finish. destruct fin; [|reflexivity]. cbn. rewrite (ri_tree_set _ _ _ _ Ri), Ed. reflexivity. }
    rewrite Ety, (ri_type _ _ _ _ Ri) in K3. unfold out_type_of in K3. unfold tree_complete in Ed. rewrite Edd in Ed, K3.
    destruct dd; try discriminate. unfold tree_type, tree_complete in K3. rewrite Edd, Ed in K3. discriminate. }
  destruct Hti as [Hti Hdn].
  assert (Of : output_complete o = false) by (unfold output_complete; rewrite Hti; reflexivity).
  assert (Etr : g_tree (g_of E o) = []) by (cbn; unfold o_tree; rewrite Hdn; reflexivity).
  destruct (g_whole_ok _ _ _ _ _ _ _ _ (ow_g _ _ _ C9) Etype Etr Hc Hr1) as (_ & -> & G3 & a1 & G5 & G6 & G7).
  set (o' := set_dest (fun _ => D) o) in *.
  assert (Eg : g_of E o' = g_set_tree (g_of E o) type tree true).
  { unfold g_of, g_set_tree. cbn [g_value g_tree_len g_height g_ntok g_regs_len g_toks g_regs]. f_equal.
    - unfold o_type, o'. cbn. destruct type; [destruct HD as [-> _]|destruct HD as (p & -> & _)|contradiction]; reflexivity.
    - unfold o_tree, o'. cbn. exact Htree.
    - unfold tree_complete, o'. cbn. destruct type; [destruct HD as [-> _]|destruct HD as (p & -> & _)|contradiction]; reflexivity. }
  rewrite <- Eg in G3, G6, G7. rewrite g_of_finished in G6. change (g_value (g_of E o)) with (so_value o) in G5.
  assert (Hs' : fs' = fs_of E s (with_outs d (pre ++ [o'])) h (bs_cb x)).
  { apply Hend; [assumption|assumption|discriminate]. }
  assert (Ed : d' = with_outs d (pre ++ [o'])) by (apply upd_outs; assumption).
  rewrite Ed.
  pose proof X as (_ & _ & _ & Ha & _). destruct (amounts_value_bounds _ _ Ha) as [Hv Hf].
  destruct (type_cb_ok _ _ _ _ _ G5) as [Q1 Q2]; cbn [fst snd] in *; try assumption.
  { apply (gw_value _ (ow_g _ _ _ C9)). }
  rewrite Ei in Q1.
  destruct (fin_cb_ok _ _ _ _ _ i G6 Q1) as [Q3 Q4].
  rewrite Hs' in *. cbn [fs_of fs_cb fs_full] in *. rewrite Q4 in K2. injection K2 as <-.
  assert (Tc : tree_complete o' = true).
  { unfold tree_complete, o'. cbn. destruct type; [destruct HD as [-> _]|destruct HD as (p & -> & _)|contradiction]; reflexivity. }
  eapply output_end; try eassumption; try reflexivity.
  - constructor.
    + exact G3.
    + intros t0 _ Hc'. congruence.
    + intros p Hd. injection Hd as ->. apply Hch. reflexivity.
    + apply (ow_tokens _ _ _ C9).
  - rewrite Q3. rewrite <- (with_outs_same d), C1 in Ha. destruct Ha as [A1 A2 A3 A4 A5].
    rewrite !fees_snoc, !change_snoc in *. 
    replace (is_fee o) with false in A1, A2 by (unfold is_fee; rewrite Hdn; reflexivity).
    replace (is_change o) with false in A2 by (unfold is_change; rewrite Hdn; reflexivity).
    change (total_in (with_outs d (pre ++ [o]))) with (total_in d) in *.
    assert (Hbal : forall a, am_rel a (balance (with_outs d (pre ++ [o]))) -> am_rel a (balance (with_outs d (pre ++ [o'])))).
    { intro a. apply am_rel_ext. intro y. unfold balance. rewrite !output_tokens_snoc. reflexivity. }
    destruct type; [| |contradiction].
    + destruct HD as [-> ->]. destruct Q2 as (B1 & B2 & B3). rewrite B3.
      constructor; rewrite ?fees_snoc, ?change_snoc; change (total_in (with_outs d (pre ++ [o']))) with (total_in d);
        change (is_fee o') with true; change (is_change o') with false; change (so_value o') with (so_value o);
        cbn [am_fee am_value am_table am_set_fee am_set_value]; try assumption; try lia.
      * apply Hbal. destruct A5; constructor; assumption.
    + destruct HD as (p & -> & ->). destruct Q2 as (B1 & B3). rewrite B3.
      constructor; rewrite ?fees_snoc, ?change_snoc; change (total_in (with_outs d (pre ++ [o']))) with (total_in d);
        change (is_fee o') with false; change (is_change o') with true; change (so_value o') with (so_value o);
        cbn [am_fee am_value am_table am_set_fee am_set_value]; try assumption; try lia.
      * apply Hbal. destruct A5; constructor; assumption.
  - destruct Ri as [R1 R2 R3 R4 R5]. destruct i as [iv it ity its ibf].
    cbn [oi_value oi_tokens oi_type oi_tree_set oi_box_finished] in *. unfold out_type_of in R3. rewrite Hdn in R3.
    rewrite Hti in R4. rewrite Of in R5. subst ity its ibf.
    assert (K : i' = mk_oi iv it T true (output_complete o')).
    { assert (NT : match T with OT_SCRIPT _ | OT_SCRIPT_DONE _ => False | _ => True end).
      { destruct type; [destruct HD as [_ ->]|destruct HD as (p & _ & ->)|contradiction]; exact I. }
      unfold oi_finish in K3. destruct (output_complete o'); cbn in K3; unfold maybe_finished_sw, maybe_finished in K3; cbn in K3.
      - destruct T; try contradiction; cbn in K3; injection K3 as <-; reflexivity.
      - injection K3 as <-. reflexivity. }
    subst i'. constructor; cbn [oi_value oi_tokens oi_type oi_tree_set oi_box_finished].
    + exact R1.
    + exact R2.
    + unfold out_type_of, o'. cbn. destruct type; [destruct HD as [-> ->]|destruct HD as (p & -> & ->)|contradiction]; reflexivity.
    + symmetry. exact Tc.
    + reflexivity.
Qed.

Lemma add_fee_ok : forall E s d h op data op',
  wf E d h -> op_tx E s d h op -> settled d (ss_path s) (sx_outputs d) ->
  p2pk_add_output_tree_fee E op = Ok op' ->
  let d' := describe_cmd d 0x17 data in
  wf E d' h /\ op_tx E s d' h op' /\ fresh d' (ss_path s) (sx_outputs d').
Proof.
  intros E s d h op data op' W X S H d'. unfold p2pk_add_output_tree_fee in H.
  destruct (op_state_of op) eqn:Est; try discriminate. apply bind_ok in H as (op1 & H1 & H2).
  apply (whole_ok E s d h op op1 op' BT_FEE FEE_TREE SD_FEE OT_MINERS_FEE); try assumption; try (split; reflexivity); try reflexivity.
  discriminate.
Qed.

Lemma read_u32s_spec : forall n l p rest, read_u32s n l = Some (p, rest) ->
  p = map (fun i => num (4 * i) 4 l) (seq 0 n) /\ (4 * n <= length l)%nat /\ rest = skipn (4 * n) l.
Proof.
  induction n as [|n IH]; intros l p rest H; cbn [read_u32s] in H.
  - injection H as <- <-. split; [reflexivity|]. split; [lia|reflexivity].
  - destruct (read_u32 l) as [[x r]|] eqn:E1; [|discriminate]. destruct (read_u32s n r) as [[xs r']|] eqn:E2; [|discriminate].
    injection H as <- <-. apply IH in E2 as (-> & L & ->).
    unfold read_u32 in E1. apply read_be_spec in E1 as (a & -> & La & ->).
    rewrite app_length. split; [|split; [lia|]].
    + rewrite <- (Nat.add_1_l n), seq_app. cbn [seq map app]. f_equal.
      * rewrite Nat.mul_0_r. symmetry. apply num_head. assumption.
      * rewrite Nat.add_0_l, <- seq_shift, map_map. apply map_ext. intro i. rewrite num_skip by lia. f_equal. lia.
    + rewrite skipn_app, (skipn_all2 a) by lia. cbn [app]. f_equal. lia.
Qed.
Lemma read_path_spec : forall l p rest, stx_read_bip32_path l = Ok (p, rest) -> p = path_at 0 l.
Proof.
  intros l p rest H. unfold stx_read_bip32_path in H. destruct l as [|n l]; [discriminate|]. rewrite read_u8_cons in H.
  unfold read_bip32_path in H. destruct ((n =? 0) || (MAX_BIP32_PATH <? n)); [discriminate|].
  destruct (read_u32s (N.to_nat n) l) as [[q r]|] eqn:E; [|discriminate]. injection H as <- <-.
  apply read_u32s_spec in E as (-> & _ & _). unfold path_at.
  change (n :: l) with ([n] ++ l). rewrite (num_head [n] l 1 eq_refl). cbn [be_value fold_left].
  replace (be_value [n]) with n by (unfold be_value; cbn; lia).
  apply map_ext. intro i. rewrite num_skip by (cbn; lia). f_equal. cbn [length]. lia.
Qed.

Lemma read_path_len : forall l p rest, stx_read_bip32_path l = Ok (p, rest) -> (length p <= 10)%nat.
Proof.
  intros l p rest H. pose proof (read_path_spec l p rest H) as ->. unfold stx_read_bip32_path in H. destruct l as [|n l]; [discriminate|]. rewrite read_u8_cons in H.
  unfold read_bip32_path in H. destruct ((n =? 0) || (MAX_BIP32_PATH <? n)) eqn:E; [discriminate|].
  unfold path_at. rewrite map_length, seq_length. change (n :: l) with ([n] ++ l). rewrite (num_head [n] l 1 eq_refl).
  replace (be_value [n]) with n by (unfold be_value; cbn; lia). unfold MAX_BIP32_PATH in E. apply orb_false_iff in E as [_ E]. apply N.ltb_ge in E. lia.
Qed.
Lemma add_change_ok : forall E s d h op data op',
  env_ok E -> wf E d h -> op_tx E s d h op -> settled d (ss_path s) (sx_outputs d) ->
  bind (stx_read_bip32_path data) (fun '(p, _) =>
    if negb (ergo_path_validate p V_ADDRESS_GE5) then Fail SW_BIP32_BAD_PATH
    else match generate_public_key E p with
         | None => Fail SW_INTERNAL_CRYPTO_ERROR
         | Some (pk, _) => p2pk_add_output_tree_change E op p pk
         end) = Ok op' ->
  let d' := describe_cmd d 0x18 data in
  wf E d' h /\ op_tx E s d' h op' /\ fresh d' (ss_path s) (sx_outputs d').
Proof.
  intros E s d h op data op' Ok W X S H d'. apply bind_ok in H as ([p rest] & Hp & H). cbv beta iota in H.
  pose proof (read_path_len _ _ _ Hp) as Hlen. apply read_path_spec in Hp.
  destruct (ergo_path_validate p V_ADDRESS_GE5) eqn:Ev; [|discriminate]. cbn [negb] in H.
  unfold generate_public_key in H. destruct (e_derive E p) as [[sk c]|] eqn:Ed; [|discriminate].
  destruct (e_mulG E sk) as [w|] eqn:Em; [|discriminate].
  unfold p2pk_add_output_tree_change in H.
  destruct (op_state_of op) eqn:Est; try discriminate. apply bind_ok in H as (op1 & H1 & H2).
  unfold d', describe_cmd. rewrite <- Hp.
  assert (K : change_ok E p) by (split; [assumption|]; split; [assumption|exists sk, c, w; auto]).
  apply (whole_ok E s d h op op1 op' BT_CHANGE (ergo_tree_generate_p2pk w) (SD_CHANGE p) (OT_BIP32 p)); try assumption.
  - exists p. auto.
  - cbn [dest_tree]. unfold public_key. rewrite Ed, Em. unfold ergo_tree_generate_p2pk.
    rewrite compress_spec by (apply (ok_mulG_len _ Ok sk); assumption). reflexivity.
  - intros q Hq. injection Hq as <-. exact K.
Qed.

(** ** Tokens *)

Lemma entries_bytes_ok : forall n l, bytes_ok l = true -> Forall (fun e => bytes_ok e = true) (entries n l).
Proof.
  intros n l. unfold entries. generalize (length l) as f. intro f. revert l.
  induction f as [|f IH]; intros l H; cbn; [destruct l; constructor|]. destruct l as [|x l]; [constructor|].
  constructor; [apply bytes_ok_firstn; assumption|]. apply IH. apply bytes_ok_skipn. assumption.
Qed.

Lemma add_out_tokens_ok : forall E s d h op data op',
  bytes_ok data = true -> wf E d h -> op_tx E s d h op -> settled d (ss_path s) (sx_outputs d) ->
  p2pk_add_output_tokens E op data = Ok op' ->
  let d' := describe_cmd d 0x19 data in
  wf E d' h /\ op_tx E s d' h op' /\ fresh d' (ss_path s) (sx_outputs d').
Proof.
  intros E s d h op data op' Hb W X S H d'. unfold p2pk_add_output_tokens in H.
  destruct (op_state_of op) eqn:Est; try discriminate. apply bind_ok in H as (op1 & H & H2).
  assert (Hp : op_phase d h = OP_OUTPUTS_STARTED) by (destruct X as (_ & Hs & _); congruence).
  destruct (current_ok E s d h W Hp) as (pre & o & C). pose proof C as [C1 C2 C3 C4 C5 C6 C7 C8 C9 C10].
  apply tx_call_ok in H as (t & r & fs' & Eu & Ef & Hr & ->).
  destruct (op_tx_fs _ _ _ _ _ _ X Eu) as [Efs Hli]. rewrite Efs in Ef. cbv beta in Ef.
  unfold full_add_box_tokens in Ef. cbn [fs_of fs_full full_of fl_state fl_distinct fs_cb] in Ef. rewrite C6 in Ef.
  fold (fs_of E s d h (op_amounts op, tx_output t)) in Ef.
  change (op_tget (op_amounts op, tx_output t)) with (am_table (op_amounts op)) in Ef.
  destruct (on_box_ok _ _ _ _ _ _ _ _ _ _ _ W C Ef Hr) as (r1 & x & Hc & Hr1 & Hrr & Hcb & Hend).
  specialize (Hrr eq_refl). subst r1.
  destruct (last_info_cur _ _ _ _ _ Hli C1) as (i & Ei & Ri).
  pose proof X as (_ & _ & _ & Ha & _).
  set (table := Some (sh_tokens h, am_table (op_amounts op))) in *.
  destruct (g_tokens_ok _ _ _ _ _ _ _ _ (ow_g _ _ _ C9) Hb Hc Hr) as (G1 & G2 & G3 & G4 & G5 & a1 & G6 & G7 & G8).
  change (tok_size table) with 12%nat in *. set (es := entries 12 data) in *.
  set (l := map (fun e => (num 0 4 e, num 4 8 e)) es).
  set (o' := add_so_tokens l o).
  assert (Eg : g_of E o' = g_add_toks (g_of E o) (map (tok_enc table) es)).
  { unfold g_of, g_add_toks. cbn [g_value g_tree_len g_height g_ntok g_regs_len g_toks g_regs g_type g_tree g_done].
    f_equal. unfold o', l. cbn [so_tokens add_so_tokens]. rewrite map_app, !map_map. reflexivity. }
  assert (Hbe : Forall (fun e => bytes_ok e = true) es) by (apply entries_bytes_ok; assumption).
  assert (Htok : map (tok_entry table) es = map (fun t => (nth (N.to_nat (fst t)) (sx_tokens d) [], snd t)) l).
  { unfold l. rewrite map_map. apply map_ext_in. intros e He. cbn [fst snd]. unfold tok_entry, table. f_equal.
    rewrite Forall_forall in G5. destruct (G5 e He) as [_ Hin]. cbn in Hin.
    rewrite (ra_table _ _ Ha). unfold table_of. destruct (table_prefix (map fst (input_tokens d)) (sx_tokens d)) as (ext & ->).
    assert (Ll : (N.to_nat (num 0 4 e) < length (sx_tokens d))%nat).
    { unfold tokens_in in C4. apply N.eqb_eq in C4. unfold blen in C4. lia. }
    rewrite app_nth1 by assumption. apply nth_indep. assumption. }
  rewrite <- Eg in G3, G4, G7, G8. rewrite g_of_finished in G7. rewrite Htok in G6.
  assert (Hl64 : Forall (fun x => snd x < two64) (map (fun t => (nth (N.to_nat (fst t)) (sx_tokens d) [], snd t)) l)).
  { unfold l. rewrite map_map, Forall_map. cbn [fst snd]. eapply Forall_impl; [|exact Hbe]. intros e He.
    apply (num_bound 4 8) in He. exact He. }
  destruct (token_cbs_ok _ _ _ _ _ _ (fun id => amount_of id (tokens_of d o)) _ G6 (ra_tokens _ _ Ha) Ei) as (Q1 & Q2 & Q3 & Q4 & (i1 & Q5 & Q6 & Q7) & Q8).
  { cbn [fst]. rewrite (ra_table _ _ Ha). exact (ri_tokens _ _ _ _ Ri). }
  { exact Hl64. }
  cbn [fst] in *.
  destruct (fin_cb_ok _ _ _ _ _ i1 G7 Q5) as [K1 K2].
  change (g_ntok (g_of E o)) with (so_ntokens o) in *.
  assert (Tc : tree_complete o = true) by exact G1.
  assert (Lt : blen (so_tokens o) <> so_ntokens o).
  { intro Y. apply G2. cbn. rewrite blen_map. exact Y. }
  assert (Of : output_complete o = false).
  { unfold output_complete. apply N.eqb_neq in Lt. rewrite Lt, andb_false_r. reflexivity. }
  assert (Tof : tokens_of d o' = tokens_of d o ++ map (fun t => (nth (N.to_nat (fst t)) (sx_tokens d) [], snd t)) l).
  { unfold tokens_of, o'. cbn [so_tokens add_so_tokens]. rewrite map_app. reflexivity. }
  assert (Hs' : fs' = fs_of E s (with_outs d (pre ++ [o'])) h (bs_cb x)).
  { apply Hend; [assumption|assumption|]. intros ->. unfold output_complete.
    replace (blen (so_tokens o') =? so_ntokens o') with false; [rewrite andb_false_r; reflexivity|].
    cbn in G3. rewrite blen_map in G3. change (so_ntokens o') with (so_ntokens o).
    change (so_tokens o') with (so_tokens o ++ l).
    destruct (blen (so_tokens o ++ l) =? so_ntokens o); [discriminate|reflexivity]. }
  assert (Ed : d' = with_outs d (pre ++ [o'])) by (apply upd_outs; assumption).
  rewrite Ed.
  assert (Hop : op_put op t fs' = op_set_union (op_put op t (fs_of E s (with_outs d (pre ++ [o'])) h (bs_cb x)))
     (OU_TX (mk_tx (full_of E (with_outs d (pre ++ [o'])) h) (Some (oi_finish E (output_complete o') i1)) (tx_last_approved t)))).
  { rewrite Hs'. unfold op_put, op_set_union. cbn. rewrite K2. reflexivity. }
  rewrite Hop in H2.
  eapply output_end; try eassumption; try reflexivity.
  - constructor.
    + exact G4.
    + intros t0 _ Hc'. unfold tree_complete in *. cbn in Hc'. congruence.
    + intros p Hd. apply (ow_change _ _ _ C9). exact Hd.
    + unfold o'. cbn [so_tokens add_so_tokens]. apply Forall_app. split; [apply (ow_tokens _ _ _ C9)|].
      unfold l. rewrite Forall_map. cbn [fst snd]. rewrite Forall_forall in *. intros e He. split.
      * apply (proj2 (G5 e He)).
      * specialize (Hbe e He). apply (num_bound 4 8) in Hbe. exact Hbe.
  - rewrite Tof. apply Q8; [exact C10|reflexivity].
  - rewrite K1. destruct Ha as [A1 A2 A3 A4 A5].
    assert (F1 : fees (with_outs d (pre ++ [o'])) = fees d /\ change (with_outs d (pre ++ [o'])) = change d).
    { rewrite <- (with_outs_same d) at 2 4. rewrite C1, !fees_snoc, !change_snoc. split; reflexivity. }
    destruct F1 as [F1 F2]. constructor.
    + rewrite F1. congruence.
    + rewrite F1, F2, Q3. exact A2.
    + exact A3.
    + rewrite Q4. exact A4.
    + eapply am_rel_ext; [|exact Q1]. intro y. cbv beta.
      rewrite <- (with_outs_same d) at 1. rewrite C1. unfold balance. rewrite !output_tokens_snoc, Tof, !amount_of_app.
      change (input_tokens (with_outs d ?l)) with (input_tokens d). lia.
  - destruct Ri as [R1 R2 R3 R4 R5]. rewrite Q6. destruct i as [iv it ity its ibf].
    cbn [oi_set_tokens oi_value oi_tokens oi_type oi_tree_set oi_box_finished] in *.
    rewrite Tc in R4. rewrite Of in R5. subst its ibf.
    assert (Ef' : oi_finish E (output_complete o') (mk_oi iv (oi_tokens i1) ity true false) =
            mk_oi iv (oi_tokens i1) (out_type_of E o') true (output_complete o')).
    { assert (R3' : ity = out_type_of E o) by exact R3. clear R3.
      unfold out_type_of in *. change (so_dest o') with (so_dest o).
      unfold oi_finish. destruct (so_dest o) as [[t0| |p]|] eqn:Edst.
      - unfold tree_type in *. assert (Tc' : tree_complete o' = true) by exact Tc. rewrite Tc in R3'. rewrite Tc'.
        fold (first_type t0 true) in *. unfold script_type in *. rewrite Of in R3'.
        destruct (classify_shape (output_info_init 0) t0 true) as [_ [Cs|(_ & [[k Cs]|[k Cs]] & _)]]; rewrite Cs in R3' |- *;
          rewrite R3'; destruct (output_complete o'); reflexivity.
      - rewrite R3'. destruct (output_complete o'); reflexivity.
      - rewrite R3'. destruct (output_complete o'); reflexivity.
      - exfalso. unfold tree_complete in Tc. rewrite Edst in Tc. discriminate. }
    match goal with |- oinfo_rel _ _ _ ?z => replace z with (mk_oi iv (oi_tokens i1) (out_type_of E o') true (output_complete o')) by (symmetry; exact Ef') end. constructor; cbn [oi_value oi_tokens oi_type oi_tree_set oi_box_finished].
    + exact R1.
    + change (table_of (with_outs d (pre ++ [o']))) with (table_of d). rewrite (ra_table _ _ Ha) in Q7.
      eapply oi_rel_ext; [|exact Q7]. intro y. cbv beta.
      change (tokens_of (with_outs d (pre ++ [o'])) o') with (tokens_of d o'). rewrite Tof, amount_of_app. reflexivity.
    + reflexivity.
    + symmetry. exact Tc.
    + reflexivity.
Qed.

(** ** Registers *)

Lemma add_regs_ok : forall E s d h op data op',
  wf E d h -> op_tx E s d h op -> settled d (ss_path s) (sx_outputs d) ->
  p2pk_add_output_registers E op data = Ok op' ->
  let d' := describe_cmd d 0x1A data in
  wf E d' h /\ op_tx E s d' h op' /\ fresh d' (ss_path s) (sx_outputs d').
Proof.
  intros E s d h op data op' W X S H d'. unfold p2pk_add_output_registers in H.
  destruct (op_state_of op) eqn:Est; try discriminate. apply bind_ok in H as (op1 & H & H2).
  assert (Hp : op_phase d h = OP_OUTPUTS_STARTED) by (destruct X as (_ & Hs & _); congruence).
  destruct (current_ok E s d h W Hp) as (pre & o & C). pose proof C as [C1 C2 C3 C4 C5 C6 C7 C8 C9 C10].
  apply tx_call_ok in H as (t & r & fs' & Eu & Ef & Hr & ->).
  destruct (op_tx_fs _ _ _ _ _ _ X Eu) as [Efs Hli]. rewrite Efs in Ef. cbv beta in Ef.
  set (c0 := (op_amounts op, tx_output t)) in *.
  set (H0 := ss_prefix s ++ out_base E d h pre).
  assert (Hx : exists r1 x, box_add_registers (op_box_cb E) (gs (g_of E o) H0 c0) data = (r1, x) /\ res_pass r1 = true /\
            on_box (op_box_cb E) (fs_of E s d h c0) (fun cb x => box_add_registers cb x data) true = (r, fs')).
  { unfold full_add_box_registers in Ef. cbn [fs_of fs_full full_of fl_state fl_union fs_hash fs_cb] in Ef.
    rewrite C6, C7, C8 in Ef. unfold on_box. cbn [fs_of fs_full full_of fl_state fl_union fs_hash fs_cb]. rewrite C7, C8.
    fold H0 in Ef |- *.
    change (mk_bs (gstate (g_of E o)) (H0 ++ gbytes (g_of E o)) c0) with (gs (g_of E o) H0 c0) in Ef |- *.
    destruct (box_add_registers (op_box_cb E) (gs (g_of E o) H0 c0) data) as [r1 x] eqn:Eb.
    exists r1, x. split; [reflexivity|].
    assert (P : res_pass r1 = true) by (destruct r1; try reflexivity; bad Ef).
    split; [exact P|].
    destruct (g_regs_ok _ _ _ _ _ _ _ (ow_g _ _ _ C9) Eb P) as (G1 & G2 & G3 & G4 & G5 & G6 & G7).
    destruct (blen (g_regs (g_add_regs (g_of E o) data)) =? g_regs_len (g_of E o)) eqn:Efull; subst r1.
    - assert (Bf : bx_state (bs_box x) = BX_FINISHED).
      { rewrite G7. cbn [gs bs_box gstate bx_state]. apply box_finished_state. unfold g_finished.
        change (g_done (g_add_regs (g_of E o) data)) with (g_done (g_of E o)). rewrite G1.
        change (g_toks (g_add_regs (g_of E o) data)) with (g_toks (g_of E o)).
        change (g_ntok (g_add_regs (g_of E o) data)) with (g_ntok (g_of E o)). rewrite G2, N.eqb_refl.
        change (g_regs_len (g_add_regs (g_of E o) data)) with (g_regs_len (g_of E o)). rewrite Efull. reflexivity. }
      rewrite Bf. exact Ef.
    - exact Ef. }
  destruct Hx as (r1 & x & Hc & Hr1 & Hon). clear Ef.
  destruct (on_box_ok _ _ _ _ _ _ _ _ _ _ _ W C Hon Hr) as (r1' & x' & Hc' & _ & Hrr & Hcb & Hend).
  fold H0 in Hc', Hend. cbv beta in Hc'. pose proof (eq_trans (eq_sym Hc) Hc') as Y. injection Y as <- <-. specialize (Hrr eq_refl). subst r1.
  destruct (last_info_cur _ _ _ _ _ Hli C1) as (i & Ei & Ri).
  pose proof X as (_ & _ & _ & Ha & _).
  destruct (g_regs_ok _ _ _ _ _ _ _ (ow_g _ _ _ C9) Hc Hr) as (G1 & G2 & G3 & G4 & G5 & G6 & G7).
  set (o' := add_so_regs data o).
  assert (Eg : g_of E o' = g_add_regs (g_of E o) data) by reflexivity.
  rewrite <- Eg in G4, G5, G6, G7. rewrite g_of_finished in G6.
  destruct (fin_cb_ok _ _ _ _ _ i G6 Ei) as [K1 K2]. cbn [fst c0] in K1.
  assert (Tc : tree_complete o = true) by exact G1.
  assert (Tk : blen (so_tokens o) = so_ntokens o) by (cbn in G2; rewrite blen_map in G2; exact G2).
  assert (Of : output_complete o = false).
  { unfold output_complete. change (g_regs (g_of E o)) with (so_regs o) in G3.
    change (g_regs_len (g_of E o)) with (so_regs_len o) in G3. apply N.eqb_neq in G3. rewrite G3, andb_false_r. reflexivity. }
  assert (Hs' : fs' = fs_of E s (with_outs d (pre ++ [o'])) h (bs_cb x)).
  { apply Hend; [assumption|assumption|]. intros ->. unfold output_complete.
    change (g_regs (g_of E o')) with (so_regs o') in G4. change (g_regs_len (g_of E o)) with (so_regs_len o') in G4.
    destruct (blen (so_regs o') =? so_regs_len o'); [discriminate|]. rewrite andb_false_r. reflexivity. }
  assert (Ed : d' = with_outs d (pre ++ [o'])) by (apply upd_outs; assumption).
  rewrite Ed.
  assert (Hop : op_put op t fs' = op_set_union (op_put op t (fs_of E s (with_outs d (pre ++ [o'])) h (bs_cb x)))
     (OU_TX (mk_tx (full_of E (with_outs d (pre ++ [o'])) h) (Some (oi_finish E (output_complete o') i)) (tx_last_approved t)))).
  { rewrite Hs'. unfold op_put, op_set_union. cbn. rewrite K2. reflexivity. }
  rewrite Hop in H2.
  eapply output_end; try eassumption; try reflexivity.
  - constructor.
    + exact G5.
    + intros t0 _ Hcc. unfold tree_complete in *. cbn in Hcc. congruence.
    + intros p Hd. apply (ow_change _ _ _ C9). exact Hd.
    + apply (ow_tokens _ _ _ C9).
  - rewrite K1. apply (amounts_same_outs _ _ _ _ _ C1 Ha); reflexivity.
  - destruct Ri as [R1 R2 R3 R4 R5]. destruct i as [iv it ity its ibf].
    cbn [oi_set_tokens oi_value oi_tokens oi_type oi_tree_set oi_box_finished] in *.
    rewrite Tc in R4. rewrite Of in R5. subst its ibf.
    assert (Ef' : oi_finish E (output_complete o') (mk_oi iv it ity true false) =
            mk_oi iv it (out_type_of E o') true (output_complete o')).
    { assert (R3' : ity = out_type_of E o) by exact R3. clear R3.
      unfold out_type_of in *. change (so_dest o') with (so_dest o).
      unfold oi_finish. destruct (so_dest o) as [[t0| |p]|] eqn:Edst.
      - unfold tree_type in *. assert (Tc' : tree_complete o' = true) by exact Tc. rewrite Tc in R3'. rewrite Tc'.
        fold (first_type t0 true) in *. unfold script_type in *. rewrite Of in R3'.
        destruct (classify_shape (output_info_init 0) t0 true) as [_ [Cs|(_ & [[k Cs]|[k Cs]] & _)]]; rewrite Cs in R3' |- *;
          rewrite R3'; destruct (output_complete o'); reflexivity.
      - rewrite R3'. destruct (output_complete o'); reflexivity.
      - rewrite R3'. destruct (output_complete o'); reflexivity.
      - exfalso. unfold tree_complete in Tc. rewrite Edst in Tc. discriminate. }
    rewrite Ef'. constructor; cbn [oi_value oi_tokens oi_type oi_tree_set oi_box_finished].
    + exact R1.
    + exact R2.
    + reflexivity.
    + symmetry. exact Tc.
    + reflexivity.
Qed.
