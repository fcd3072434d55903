(** What the error codes say: the commands of an open attestation session. *)
From Verif Require Import Lib Gve CodecProofs Env SpecVlq Bip32 ErgoTree TxTable TxBox InputFrame UiFlow P2pkOp App SpecTree SpecTrace SpecTx SpecAmounts SpecApdu
  SpecScreen SpecRequest SpecDispatch SpecSign SpecRules SpecAccept SpecAttest SpecStart SpecStatus BoxProofs Moves SignInv SignInput TraceSign TraceAttest
  TraceScreen TraceShow TraceUb FlowProofs DispatchProofs RequestProofs SessionProofs AttestProofs AcceptInput AcceptFrame AcceptOutput AcceptProofs AttestAccept
  StatusSign StatusOutput StatusProofs.

#[local] Arguments N.eqb : simpl never.
#[local] Arguments N.ltb : simpl never.
#[local] Arguments N.leb : simpl never.
#[local] Arguments N.sub : simpl never.
#[local] Arguments blen : simpl never.
#[local] Arguments num : simpl never.
#[local] Arguments slice : simpl never.

Lemma att_tree_why : forall b data r, sb_wf b -> blen data <= 255 ->
  fst (box_add_tree attest_box_cb (gs (g_att b) [] (sb_tokens b)) data) = r -> res_pass r = false -> box_chunk_error b data (sw_of_res r).
Proof.
  intros b data r W Hl. pose proof (gw_tree _ (sw_g _ W) eq_refl) as Ht. unfold box_add_tree, box_chunk_error. pose proof (done_iff b) as Dn.
  cbn [gs bs_box gstate bx_state bx_tree_size]. unfold g_box_state. change (g_done (g_att b)) with (sb_done b).
  change (g_tree_left (g_att b)) with (sb_tree_len b - blen (box_script b)).
  change (g_tree (g_att b)) with (box_script b) in Ht. change (g_tree_len (g_att b)) with (sb_tree_len b) in Ht.
  rewrite blen_app. destruct (sb_done b); cbn [negb].
  { destruct (negb _); [|destruct (negb _)]; intros <- _; apply Dn; reflexivity. }
  assert (Ld : (length data < 255)%nat <-> blen data < 255) by (unfold blen; lia). unfold MAX_DATA_CHUNK_LEN.
  destruct (N.ltb_spec (sb_tree_len b - blen (box_script b)) (blen data)) as [L|L].
  { intros <- _. cbn [box_res_error fst sw_of_res]. lia. }
  destruct (N.ltb_spec (blen data) (sb_tree_len b - blen (box_script b))) as [L1|L1]; cbn [andb].
  - destruct (N.ltb_spec (blen data) 255) as [L2|L2].
    + intros <- _. cbn [box_res_error fst sw_of_res]. lia.
    + intros <-. destruct (N.eqb_spec (sb_tree_len b - blen (box_script b) - blen data) 0); [lia|discriminate].
  - intros <-. destruct (N.eqb_spec (sb_tree_len b - blen (box_script b) - blen data) 0) as [_|X]; [|lia].
    unfold ergo_tree_added, ergo_tree_added_tail. cbn [attest_box_cb on_type].
    destruct (_ =? 0); [|discriminate]. destruct (_ =? 0); discriminate.
Qed.

Lemma att_regs_why : forall b data r, sb_wf b ->
  fst (box_add_registers attest_box_cb (gs (g_att b) [] (sb_tokens b)) data) = r -> res_pass r = false -> box_registers_error b data (sw_of_res r).
Proof.
  intros b data r W. pose proof (gw_regs _ (sw_g _ W)) as Hr. pose proof (gw_toks _ (sw_g _ W)) as Ht. unfold box_add_registers, box_registers_error. pose proof (done_iff b) as Dn.
  cbn [gs bs_box gstate bx_state bx_regs_size]. unfold g_box_state.
  cbn [g_att g_done g_toks g_ntok g_regs g_regs_len] in *. rewrite blen_map in *. rewrite blen_app. destruct (sb_done b); cbn [negb].
  2:{ intros <- _. left. intro K. apply Dn in K. discriminate. }
  destruct (N.eqb_spec (blen (sb_tokens b)) (sb_ntokens b)) as [Et|Et]; cbn [negb].
  2:{ intros <- _. right. left. lia. }
  destruct (N.eqb_spec (blen (sb_regs b)) (sb_regs_len b)) as [Er|Er]; cbn [negb].
  { intros <- _. right. right. exact Er. }
  destruct (N.ltb_spec (sb_regs_len b - blen (sb_regs b)) (blen data)) as [L|L].
  { intros <- _. cbn [box_res_error fst sw_of_res]. lia. }
  intros <-. destruct (_ =? 0); discriminate.
Qed.

Definition box_entry (e : bytes) : bytes * N := (slice 0 32 e, num 32 8 e).
Lemma nodup_old : forall (l : list (bytes * N)) id v, existsb (fun t => bytes_eqb id (fst t)) l = true -> ~ NoDup (map fst (l ++ [(id, v)])).
Proof.
  intros l id v X H. apply existsb_exists in X as ([i w] & X1 & X2). apply bytes_eqb_eq in X2. cbn [fst] in X2. subst i.
  rewrite map_app in H. cbn [map fst] in H. apply NoDup_remove_2 in H. apply H. rewrite app_nil_r. change id with (fst (id, w)). apply in_map. exact X1.
Qed.

Lemma att_loop_why : forall fuel (x : bs (list (token_id * N))) input r x',
  (length input < fuel)%nat -> box_tokens_loop attest_box_cb fuel None x input = (r, x') ->
  r = R_OK \/ exists es1 e es2, entries 40 input = es1 ++ e :: es2 /\ Forall (fun e => length e = 40%nat) es1 /\
    (r = R_TOO_MANY_TOKENS /\ (blen es1 = bx_tokens_count (bs_box x) \/ 20 <= blen (bs_cb x) + blen es1) \/
     r = R_BAD_TOKEN_ID /\ (length e <> 40%nat \/ ~ NoDup (map fst (bs_cb x ++ map box_entry (es1 ++ [e])))) \/
     r = R_BAD_TOKEN_VALUE /\ length e <> 40%nat).
Proof.
  intros fuel. induction fuel as [|k IH]; intros x input r x' Hf H; [lia|].
  cbn [box_tokens_loop] in H. destruct input as [|y0 input]; [left; congruence|]. remember (y0 :: input) as inp eqn:Ei.
  assert (Li : (0 < length inp)%nat) by (subst; cbn; lia). clear Ei.
  rewrite (entries_ne 40 inp) by lia.
  assert (Len : length (firstn 40 inp) = Nat.min 40 (length inp)) by apply firstn_length.
  assert (S1 : slice 0 32 (firstn 40 inp) = slice 0 32 inp).
  { unfold slice. cbn [skipn]. rewrite firstn_firstn. reflexivity. }
  assert (S2 : num 32 8 (firstn 40 inp) = num 32 8 inp).
  { unfold num, slice. f_equal. rewrite skipn_firstn_comm. rewrite firstn_firstn. reflexivity. }
  assert (Q : (exists r0, fst (fst (box_one_token attest_box_cb None x inp)) = r0 /\ r0 <> R_OK /\ r = r0) \/
              exists x1 rest, box_one_token attest_box_cb None x inp = (R_OK, x1, rest) /\ box_tokens_loop attest_box_cb k None x1 rest = (r, x')).
  { destruct (box_one_token attest_box_cb None x inp) as [[r1 x1] rest] eqn:E1. revert H.
    try match goal with |- context [box_one_token ?a1 ?a2 ?a3 ?a4] =>
      assert (E2 : box_one_token a1 a2 a3 a4 = (r1, x1, rest)) by exact E1; rewrite E2; clear E2 end.
    destruct r1; intro H; try (left; eexists; split; [reflexivity|]; split; [discriminate|]; cbn [fst]; congruence).
    right. exists x1, rest. split; [reflexivity|exact H]. }
  clear H. unfold box_one_token in Q.
  destruct (N.eqb_spec (bx_tokens_count (bs_box x)) 0) as [Z|Z].
  { right. exists [], (firstn 40 inp), (entries 40 (skipn 40 inp)). split; [reflexivity|]. split; [constructor|].
    destruct Q as [(r0 & Q & _ & ->)|(x1 & rest & Q & _)]; [|discriminate Q]. left. split; [symmetry; exact Q|left]. rewrite Z. reflexivity. }
  destruct (le_lt_dec 32 (length inp)) as [L32|L32].
  2:{ right. exists [], (firstn 40 inp), (entries 40 (skipn 40 inp)). split; [reflexivity|]. split; [constructor|].
      assert (Rb : read_bytes ERGO_ID_LEN inp = None).
      { unfold read_bytes, ERGO_ID_LEN. replace (Nat.leb 32 (length inp)) with false by (symmetry; apply Nat.leb_gt; lia). reflexivity. }
      rewrite Rb in Q. destruct Q as [(r0 & Q & _ & ->)|(x1 & rest & Q & _)]; [|discriminate Q]. right. left. split; [symmetry; exact Q|left; lia]. }
  rewrite read_bytes_ex in Q by (unfold ERGO_ID_LEN; lia). unfold ERGO_ID_LEN in Q.
  unfold box_token_value, read_u64 in Q. destruct (le_lt_dec 40 (length inp)) as [L40|L40].
  2:{ right. exists [], (firstn 40 inp), (entries 40 (skipn 40 inp)). split; [reflexivity|]. split; [constructor|].
      assert (Rb : read_be 8 (skipn 32 inp) = None).
      { destruct (read_be 8 (skipn 32 inp)) as [[w l]|] eqn:Rb; [|reflexivity].
        apply read_be_spec in Rb as (b1 & D1 & L1 & _). apply (f_equal (@length N)) in D1. rewrite skipn_length, app_length in D1. lia. }
      rewrite Rb in Q. destruct Q as [(r0 & Q & _ & ->)|(x1 & rest & Q & _)]; [|discriminate Q].
      right. right. split; [symmetry; exact Q|lia]. }
  rewrite read_be_ex in Q by (rewrite skipn_length; lia).
  replace (skipn 8 (skipn 32 inp)) with (skipn 40 inp) in Q by (rewrite skipn_add; reflexivity).
  change (num 0 8 (skipn 32 inp)) with (num 32 8 inp) in Q.
  set (id := slice 0 32 inp) in *. set (v := num 32 8 inp) in *.
  cbn [attest_box_cb on_token] in Q. unfold attest_token_cb in Q. cbn [bs_feed bs_cb bs_box] in Q. unfold TOKEN_MAX_COUNT in Q.
  assert (En : box_entry (firstn 40 inp) = (id, v)) by (unfold box_entry; rewrite S1, S2; reflexivity).
  destruct (N.leb_spec 20 (blen (bs_cb x))) as [L20|L20].
  { right. exists [], (firstn 40 inp), (entries 40 (skipn 40 inp)). split; [reflexivity|]. split; [constructor|].
    cbn [res_pass] in Q. destruct Q as [(r0 & Q & _ & ->)|(x1 & rest & Q & _)]; [|discriminate Q]. left. split; [symmetry; exact Q|right]. lia. }
  destruct (existsb (fun t => bytes_eqb id (fst t)) (bs_cb x)) eqn:Ex.
  { right. exists [], (firstn 40 inp), (entries 40 (skipn 40 inp)). split; [reflexivity|]. split; [constructor|].
    cbn [res_pass] in Q. destruct Q as [(r0 & Q & _ & ->)|(x1 & rest & Q & _)]; [|discriminate Q]. right. left. split; [symmetry; exact Q|right].
    cbn [List.app map]. rewrite En. apply nodup_old. exact Ex. }
  cbn [res_pass] in Q. destruct Q as [(r0 & Q & Hn & _)|(x1 & rest & Q & H)]; [exfalso; apply Hn; symmetry; exact Q|].
  assert (rest = skipn 40 inp) by congruence. subst rest.
  assert (C1 : bs_cb x1 = bs_cb x ++ [(id, v)] /\ bx_tokens_count (bs_box x1) = bx_tokens_count (bs_box x) - 1).
  { apply (f_equal (fun z => snd (fst z))) in Q. cbn [fst snd] in Q. rewrite <- Q. split; reflexivity. }
  destruct C1 as [C1 C2]. clear Q.
  apply IH in H; [|rewrite skipn_length; lia]. rewrite C1, C2 in H.
  destruct H as [H|(es1 & e & es2 & H1 & H2 & H3)]; [left; exact H|right]. exists (firstn 40 inp :: es1), e, es2. rewrite H1. split; [reflexivity|].
  split; [constructor; [lia|exact H2]|]. rewrite blen_cons. cbn [List.app map]. rewrite En.
  rewrite <- app_assoc, blen_app, blen_cons in H3. change (blen (@nil (token_id * N))) with 0 in H3. cbn [List.app] in H3.
  destruct H3 as [[H3 H4]|[H3|H3]]; [left; split; [exact H3|]|right; left; exact H3|right; right; exact H3].
  destruct H4 as [H4|H4]; [left|right]; lia.
Qed.

Lemma nodup_left : forall A (a b : list A), NoDup (a ++ b) -> NoDup a.
Proof.
  intros A a b. induction a as [|x a IH]; intro H; [constructor|]. inversion H as [|? ? Hx Ha]; subst.
  constructor; [|apply IH, Ha]. intro K. apply Hx. apply in_or_app. left. exact K.
Qed.
Lemma att_tokens_why : forall b data r, sb_wf b ->
  fst (box_add_tokens attest_box_cb (gs (g_att b) [] (sb_tokens b)) data None) = r -> res_pass r = false ->
  box_tokens_error b data (sb_cmd b 0x03 data) (sw_of_res r).
Proof.
  intros b data r W H Hr. pose proof (gw_toks _ (sw_g _ W)) as Ht. pose proof (gw_ntok _ (sw_g _ W)) as H20.
  unfold box_tokens_error. pose proof (done_iff b) as Dn. unfold box_add_tokens in H.
  cbn [gs bs_box gstate bx_state] in H. unfold g_box_state in H. cbn [g_att g_done g_toks g_ntok] in *. rewrite blen_map in *.
  destruct (sb_done b); cbn [negb] in H.
  2:{ subst r. left. intro K. apply Dn in K. discriminate. }
  destruct (N.eqb_spec (blen (sb_tokens b)) (sb_ntokens b)) as [Et|Et]; cbn [negb] in H.
  { destruct (negb _); subst r; right; exact Et. }
  destruct (box_tokens_loop attest_box_cb (Datatypes.S (length data)) None (gs (g_att b) [] (sb_tokens b)) data) as [r1 x1] eqn:El.
  assert (E1 : r1 <> R_OK /\ r = r1).
  { revert H. try match goal with |- context [box_tokens_loop ?a1 ?a2 ?a3 ?a4 ?a5] =>
      assert (E2 : box_tokens_loop a1 a2 a3 a4 a5 = (r1, x1)) by exact El; rewrite E2; clear E2 end.
    destruct r1; intro H; try (split; [discriminate|symmetry; exact H]).
    exfalso. subst r. unfold box_tokens_done in Hr. destruct (_ =? 0); [|discriminate Hr]. destruct (_ =? 0); discriminate Hr. }
  destruct E1 as [Hn ->]. clear H.
  apply att_loop_why in El as [El|(es1 & e & es2 & He & Hf & K)]; [contradiction| |lia].
  cbn [sb_cmd sb_tokens gs bs_box gstate bx_tokens_count bs_cb g_att g_ntok g_toks] in *. rewrite blen_map in K. fold box_entry.
  assert (Em : map box_entry (entries 40 data) = map box_entry (es1 ++ [e]) ++ map box_entry es2).
  { rewrite He. change (es1 ++ e :: es2) with (es1 ++ [e] ++ es2). rewrite app_assoc, map_app. reflexivity. }
  rewrite Em. destruct K as [[-> K]|[[-> K]|[-> K]]]; cbn [sw_of_res].
  - rewrite !blen_app, !blen_map, blen_app, blen_cons. lia.
  - destruct K as [K|K]; [left; eapply entries_not_whole; [lia|exact He|exact K]|right]. intro Nd. apply K.
    rewrite app_assoc, map_app in Nd. exact (nodup_left _ _ _ Nd).
  - eapply entries_not_whole; [lia|exact He|exact K].
Qed.

(** One command. *)
Lemma box_command_why : forall E key tr st start body c sub data b s, env_ok E -> history E key tr st -> bytes_ok data = true -> blen data <= 255 ->
  st_ctx st = X_ATTEST c -> at_state c <> AT_INITIALIZED -> attest_phase E start body c ->
  (forall call, attest_call sub data = Some call -> In (OResp b s) (snd (attest_box_call E st c call)) -> s <> SW_OK ->
     b = [] /\ box_error (streamed_box start body) sub data s) /\
  (sub = 0x05 -> In (OResp b s) (snd (attest_get_frame E st c data)) -> s <> SW_OK -> b = [] /\ box_error (streamed_box start body) sub data s).
Proof.
  intros E key tr st start body c sub data bb s Henv H Hb Hl Hx Hi P.
  set (b := streamed_box start body) in *.
  assert (W : sb_wf b). { unfold attest_phase in P. destruct (at_state c); [congruence|apply P|destruct P as (_ & P & _); exact P]. }
  assert (Cm : sb_complete b = true -> script_done b /\ blen (sb_tokens b) = sb_ntokens b /\ blen (sb_regs b) = sb_regs_len b).
  { intro K. rewrite <- done_iff. rewrite <- g_att_finished in K. unfold g_finished in K. apply andb_true_iff in K as [K K3]. apply andb_true_iff in K as [K1 K2].
    cbn [g_att g_done g_toks g_ntok g_regs g_regs_len] in *. rewrite blen_map in K2. apply N.eqb_eq in K2, K3. auto. }
  split.
  - intros call Hc Hin Hs.
    assert (Hsub : sub = 0x02 \/ sub = 0x03 \/ sub = 0x04).
    { unfold attest_call in Hc. repeat match type of Hc with match ?n with _ => _ end = _ => destruct n; try discriminate end; auto. }
    unfold attest_box_call in Hin. unfold attest_phase in P. fold b in P. destruct (at_state c) eqn:Ea; [congruence| |].
    + (* finished *)
      cbn [handler_err snd] in Hin. destruct (resp_in _ _ _ Hin) as [-> ->]. split; [reflexivity|].
      destruct P as (_ & _ & P & _). destruct (Cm P) as (C1 & C2 & C3).
      destruct Hsub as [->|[->| ->]]; cbv [box_error box_chunk_error box_tokens_error box_registers_error]; auto.
    + destruct P as (_ & _ & _ & _ & P). destruct (call (attest_bs c)) as [r x] eqn:Er.
      destruct (res_pass r) eqn:Ep.
      * exfalso. destruct r; try discriminate Ep.
        -- unfold check_box_finished in Hin. destruct (bx_state (at_box (attest_put c x))) eqn:Eb; try (destruct (resp_in _ _ _ Hin) as [_ K]; contradiction).
           unfold box_id_hash in Hin. cbn [attest_put attest_bs bs_box at_box] in *. rewrite Eb in Hin. destruct Hin as [Hin|[]]. congruence.
        -- destruct (resp_in _ _ _ Hin) as [_ K]. contradiction.
      * assert (Es : bb = [] /\ s = sw_of_res r).
        { destruct r; try discriminate Ep; cbn [handler_err snd] in Hin; exact (resp_in _ _ _ Hin). }
        destruct Es as [-> ->]. split; [reflexivity|]. rewrite P in Er. apply (f_equal fst) in Er. cbn [fst] in Er.
        destruct Hsub as [->|[->| ->]]; cbn [attest_call] in Hc;
          match type of Hc with Some ?f = Some _ => assert (call = f) by congruence end; subst call; cbv [box_error].
        -- eapply att_tree_why; eassumption.
        -- eapply att_tokens_why; eassumption.
        -- eapply att_regs_why; eassumption.
  - intros -> Hin Hs. cbv [box_error]. unfold attest_get_frame in Hin. unfold attest_phase in P. fold b in P. destruct (at_state c) eqn:Ea; [congruence| |].
    + destruct P as (_ & _ & Co & _ & X2 & _). destruct data as [|i l].
      { destruct (resp_in _ _ _ Hin) as [-> ->]. split; reflexivity. }
      rewrite read_u8_cons in Hin. cbn [rd bind] in Hin. destruct l as [|? ?]; cbn [finished] in Hin.
      2:{ destruct (resp_in _ _ _ Hin) as [-> ->]. split; [reflexivity|]. cbv [box_frame_error]. cbn [length]. lia. }
      rewrite X2, frames_count_ok in Hin by exact W. destruct (N.leb_spec (frame_total b) i) as [L|L].
      * destruct (resp_in _ _ _ Hin) as [-> ->]. split; [reflexivity|]. cbv [box_frame_error]. exists i. auto.
      * exfalso. cbn [snd] in Hin. destruct Hin as [Hin|[]]. congruence.
    + destruct (resp_in _ _ _ Hin) as [-> ->]. split; [reflexivity|]. cbv [box_frame_error].
      destruct (sb_complete b) eqn:K; [|reflexivity]. exfalso. destruct P as (_ & _ & _ & _ & P).
      pose proof (approved_open E key tr st Henv H) as Op. rewrite Hx in Op. apply Op; [congruence|].
      change (at_box c) with (bs_box (attest_bs c)). rewrite P. cbn [gs bs_box gstate bx_state]. unfold g_box_state.
      destruct (Cm eq_refl) as (K1 & K2 & K3). apply done_iff in K1. cbn [g_att g_done g_toks g_ntok g_regs g_regs_len]. rewrite K1, blen_map, K2, K3, !N.eqb_refl. reflexivity.
Qed.
