(** Exactly when a command of an open attestation session is accepted. *)
From Verif Require Import Lib Gve CodecProofs Env SpecVlq Bip32 ErgoTree TxTable TxBox InputFrame UiFlow P2pkOp App SpecTree SpecTrace SpecTx SpecAmounts SpecApdu
  SpecScreen SpecRequest SpecDispatch SpecSign SpecRules SpecAccept SpecAttest BoxProofs Moves SignInv SignInput TraceSign TraceAttest
  TraceScreen TraceShow TraceUb FlowProofs DispatchProofs RequestProofs SessionProofs AttestProofs AcceptInput AcceptFrame AcceptOutput AcceptProofs.

#[local] Arguments N.eqb : simpl never.
#[local] Arguments N.ltb : simpl never.
#[local] Arguments N.leb : simpl never.
#[local] Arguments N.sub : simpl never.
#[local] Arguments blen : simpl never.
#[local] Arguments num : simpl never.
#[local] Arguments slice : simpl never.

(** ** The state behind an open session *)

Lemma foreign_at : forall sid cla ins p1 p2 data r outs, keeps INS_ATTEST sid (Apdu cla ins p1 p2 data r, outs) ->
  ins <> INS_ATTEST -> ins <> INS_VERSION -> ins <> INS_NAME -> accepted outs = true -> False.
Proof.
  intros sid cla ins p1 p2 data r outs K N1 N2 N3 A. cbn [keeps continuation] in K. apply N.eqb_neq in N1. rewrite N1, andb_false_r in K. cbn [andb] in K.
  destruct K as [[K _]|[[K _]|(s & -> & I)]]; [discriminate|tauto|].
  cbn [In] in I. repeat (destruct I as [<-|I]; [discriminate A|]). destruct I.
Qed.
Definition at_once (start : obs) : Prop := exists a, snd start = [OResp [a] SW_OK].
Definition no_consent (o : obs) : Prop := (fst o = UiApprove \/ fst o = UiPathBoth) -> forall x, snd o <> [OResp [x] SW_OK].

Lemma attest_context : forall E key tr0 start sid body st, env_ok E -> history E key (tr0 ++ start :: body) st ->
  is_start INS_ATTEST start = true -> Forall (fun x => is_start INS_ATTEST x = false) body ->
  Forall (keeps INS_ATTEST sid) body -> Forall (fun o => ~ malformed_start o) body ->
  exists c, st_ctx st = X_ATTEST c /\ (at_once start -> at_state c <> AT_INITIALIZED /\ Forall no_consent body).
Proof.
  intros E key tr0 start sid body st Henv H Hst. revert st H. induction body as [|[e outs] body IH] using rev_ind; intros st H F K N.
  - destruct start as [e outs]. apply history_last in H as (st0 & Hh & Sh & Hev & _ & M & D).
    destruct e as [cla ins p1 p2 data r| | | | | | | |]; try discriminate Hst. cbn [is_start] in Hst.
    apply andb_true_iff in Hst as [Hst Ha]. apply andb_true_iff in Hst as [Hst H1]. apply andb_true_iff in Hst as [H2 H3].
    apply N.eqb_eq in H1, H2, H3. subst.
    inversion M; subst; try discriminate; try congruence; try solve [other];
      try (match goal with K : (if ?b then UiApprove else UiReject) = _ |- _ => destruct b; discriminate K end).
    + exfalso. match goal with K : refused _ _ _ |- _ => unfold refused in K; cbv beta iota in K; destruct K as [K|[K|[K|[K|K]]]]; decompose [and] K end; subst; discriminate Ha.
    + exfalso. match goal with K : handler_error s = true \/ _ |- _ => destruct K as [K|[K _]]; destruct s; discriminate end.
    + eexists. split; [reflexivity|]. intros _. split; [discriminate|constructor].
    + eexists. split; [reflexivity|]. intros [z Ez]. discriminate Ez.
  - rewrite app_comm_cons, app_assoc in H. apply Forall_app in F as [F Fx]. apply Forall_app in K as [K Kx]. apply Forall_app in N as [N Nx].
    inversion Kx as [|? ? Kx' _]; subst. inversion Nx as [|? ? Nm _]; subst. inversion Fx as [|? ? Fx' _]; subst. clear Kx Nx Fx.
    apply history_last in H as (st0 & Hh & Sh & Hev & _ & M & D). destruct (IH st0 Hh F K N) as (c & G & A). clear IH.
    assert (Same : forall c', at_state c' = at_state c -> no_consent (e, outs) ->
      at_once start -> at_state c' <> AT_INITIALIZED /\ Forall no_consent (body ++ [(e, outs)])).
    { intros c' Ec Nc Ha. destruct (A Ha) as [A1 A2]. split; [congruence|]. apply Forall_app. split; [exact A2|]. constructor; [exact Nc|constructor]. }
    assert (Ap : forall cla ins p1 p2 data r, no_consent (Apdu cla ins p1 p2 data r, outs)).
    { intros. intros [X|X]; discriminate X. }
    unfold shape in Sh. rewrite G in Sh.
    assert (Pg : has_pages (st_ui st0) = false).
    { destruct Sh as [_ Sh]. destruct (at_state c); destruct Sh as [_ Sh]; destruct (st_ui st0); try discriminate Sh; reflexivity. }
    inversion M; subst; try congruence;
      try (exfalso; eapply foreign_at; [exact Kx'|discriminate|discriminate|discriminate|reflexivity]);
      try (exfalso; cbn [is_start] in Fx'; discriminate Fx');
      try (exists c; split; [exact G|apply Same; [reflexivity|try apply Ap; intros X x; try discriminate; destruct X as [X|X]; discriminate X]]; fail).
    + exfalso. cbn [keeps continuation] in Kx'. destruct Kx' as [[Kx' _]|[[Kx' _]|Kx']].
      * match goal with K : handler_error s = true \/ _ |- _ => destruct K as [K|[K _]]; destruct s; try discriminate K end;
          cbn in Kx'; rewrite ?andb_false_r in Kx'; discriminate.
      * destruct Kx' as [-> | ->]; discriminate.
      * destruct Kx' as (s0 & E0 & I0). destruct H2 as [K2|(-> & -> & -> & K4)].
        -- cbn [In] in I0. repeat (destruct I0 as [<-|I0]; [destruct s; try discriminate K2; discriminate E0|]). destruct I0.
        -- apply Nm. exists CLA, p2, data, r. split; [reflexivity|]. unfold params_ok in H0. unfold one_or_two in K4.
           assert (p2 <> 0). { intros ->. discriminate H0. } assert (p2 <> 1 /\ p2 <> 2). { split; intros ->; discriminate K4. } lia.
    + exfalso. cbn [keeps continuation] in Kx'. change (INS_ADDRESS =? INS_ATTEST) with false in Kx'. rewrite andb_false_r in Kx'. cbn [andb] in Kx'.
      destruct Kx' as [[Kx' _]|[[Kx' _]|(s0 & E0 & I0)]]; [discriminate|destruct Kx'; discriminate|].
      cbn [In] in I0. repeat (destruct I0 as [<-|I0]; [discriminate E0|]). destruct I0.
    + exfalso. apply D. left. reflexivity.
    + eexists. split; [reflexivity|]. apply Same; [cbn [attest_put at_state]; congruence|apply Ap].
    + eexists. split; [reflexivity|]. intro Ha. destruct (A Ha) as [A1 A2]. split; [discriminate|]. apply Forall_app. split; [exact A2|].
      constructor; [apply Ap|constructor].
    + destruct b.
      * eexists. split; [reflexivity|]. intro Ha. exfalso. destruct (A Ha) as [A1 _]. destruct Sh as [_ Sh].
        destruct (at_state c); [congruence| |]; destruct Sh as [_ Sh]; match goal with K : st_ui st0 = U_ATTEST |- _ => rewrite K in Sh end; discriminate Sh.
      * exfalso. cbn [keeps] in Kx'. specialize (Kx' [] SW_DENY (or_introl eq_refl)). discriminate.
Qed.

Lemma attest_state : forall E key tr st sid start body, env_ok E -> history E key tr st -> attesting sid tr start body -> on_screen tr = None ->
  exists c, st_busy st = false /\ st_key st = key /\ st_cmd st = CMD_ATTEST /\ st_ctx st = X_ATTEST c /\ at_session c = sid /\ sid <> 0 /\
    at_state c <> AT_INITIALIZED /\ attest_phase E start body c.
Proof.
  intros E key tr st sid start body Henv H ((O & K & Si) & N) Hs.
  pose proof (screen_idle_state _ _ _ _ Henv H Hs) as B. pose proof (history_shape _ _ _ _ H) as Sh.
  destruct (attest_inv_holds E key tr st Henv H) as [Hk I].
  destruct (session_suffix _ _ _ _ O) as (tr0 & Et & S1 & S2). pose proof H as H'. rewrite Et in H'.
  destruct (attest_context _ _ _ _ _ _ _ Henv H' S1 S2 K N) as (c & G & A). rewrite G in I.
  destruct I as (start' & body' & I1 & I2 & I3 & I4). rewrite O in I1. injection I1 as <- <-.
  unfold shape in Sh. rewrite G in Sh. destruct Sh as [Hc Sh].
  assert (Hg : at_state c <> AT_INITIALIZED). { intro Eg. rewrite Eg in Sh. destruct Sh as [Sh _]. congruence. }
  assert (Al : attest_allowed start (at_session c) body). { unfold attest_phase in I4. destruct (at_state c); [congruence| |]; apply I4. }
  assert (Nc : forall x y, snd start = [OResp [x] SW_OK] -> approved_in INS_ATTEST y body -> False).
  { intros x y Ex (b1 & e & b2 & Eb & Ue & _). destruct (A (ex_intro _ x Ex)) as [_ A2]. rewrite Forall_forall in A2.
    apply (A2 (e, [OResp [y] SW_OK])) with (x := y); [rewrite Eb; apply in_or_app; right; left; reflexivity|exact Ue|reflexivity]. }
  assert (Es : at_session c = sid).
  { destruct Si as [[_ Si]|Si], Al as [Al|Al].
    - rewrite Si in Al. congruence.
    - exfalso. eapply Nc; eauto.
    - exfalso. eapply Nc; eauto.
    - eapply approved_once; eauto. }
  exists c. do 5 (split; [assumption|]). split; [destruct I2 as (? & ? & ? & ? & I2); decompose [and] I2; congruence|]. split; assumption.
Qed.

(** ** The parts of the box *)

Lemma done_iff : forall b, sb_done b = true <-> script_done b.
Proof.
  intro b. unfold sb_done, script_done. destruct (sb_tree b) as [t|]; split.
  - intro H. apply N.eqb_eq in H. eauto.
  - intros (t' & K & L). injection K as <-. apply N.eqb_eq. exact L.
  - discriminate.
  - intros (t' & K & _). discriminate.
Qed.
Lemma fin_at : forall x : bs (list (token_id * N)), res_pass (fst (box_finished attest_box_cb x)) = true.
Proof. intro x. reflexivity. Qed.

Lemma att_tree_iff : forall b data, sb_wf b -> blen data <= 255 ->
  (res_pass (fst (box_add_tree attest_box_cb (gs (g_att b) [] (sb_tokens b)) data)) = true <-> box_chunk_ok b data).
Proof.
  intros b data W Hl. pose proof (gw_tree _ (sw_g _ W) eq_refl) as Ht. unfold box_add_tree, box_chunk_ok. rewrite <- done_iff.
  cbn [gs bs_box gstate bx_state bx_tree_size]. unfold g_box_state. change (g_done (g_att b)) with (sb_done b).
  change (g_tree_left (g_att b)) with (sb_tree_len b - blen (box_script b)).
  change (g_tree (g_att b)) with (box_script b) in Ht. change (g_tree_len (g_att b)) with (sb_tree_len b) in Ht.
  rewrite blen_app. destruct (sb_done b); cbn [negb].
  { split; [|intros (X & _); exfalso; apply X; reflexivity]. destruct (negb _); [discriminate|]. destruct (negb _); discriminate. }
  assert (Ld : length data = 255%nat <-> blen data = 255) by (unfold blen; lia). rewrite Ld. unfold MAX_DATA_CHUNK_LEN.
  destruct (N.ltb_spec (sb_tree_len b - blen (box_script b)) (blen data)) as [L|L].
  { split; [discriminate|intros (_ & X & _); lia]. }
  destruct (N.ltb_spec (blen data) (sb_tree_len b - blen (box_script b))) as [L1|L1]; cbn [andb].
  - destruct (N.ltb_spec (blen data) 255) as [L2|L2].
    + split; [discriminate|intros (_ & _ & [X|X]); lia].
    + split; [intros _; split; [discriminate|lia]|]. intros _.
      destruct (N.eqb_spec (sb_tree_len b - blen (box_script b) - blen data) 0); [lia|reflexivity].
  - split; [intros _; split; [discriminate|lia]|]. intros _.
    destruct (N.eqb_spec (sb_tree_len b - blen (box_script b) - blen data) 0) as [_|X]; [|lia].
    unfold ergo_tree_added, ergo_tree_added_tail. cbn [attest_box_cb on_type].
    destruct (_ =? 0); [|reflexivity]. destruct (_ =? 0); reflexivity.
Qed.

Lemma att_regs_iff : forall b data, sb_wf b ->
  (res_pass (fst (box_add_registers attest_box_cb (gs (g_att b) [] (sb_tokens b)) data)) = true <-> box_registers_ok b data).
Proof.
  intros b data W. pose proof (gw_regs _ (sw_g _ W)) as Hr. unfold box_add_registers, box_registers_ok. rewrite <- done_iff.
  cbn [gs bs_box gstate bx_state bx_regs_size]. unfold g_box_state.
  cbn [g_att g_done g_toks g_ntok g_regs g_regs_len] in *. rewrite blen_map, blen_app. destruct (sb_done b); cbn [negb].
  2:{ split; [discriminate|intros (X & _); discriminate]. }
  destruct (N.eqb_spec (blen (sb_tokens b)) (sb_ntokens b)) as [Et|Et]; cbn [negb].
  2:{ split; [discriminate|intros (_ & X & _); contradiction]. }
  destruct (N.eqb_spec (blen (sb_regs b)) (sb_regs_len b)) as [Er|Er]; cbn [negb].
  { split; [discriminate|intros (_ & _ & X & _); lia]. }
  destruct (N.ltb_spec (sb_regs_len b - blen (sb_regs b)) (blen data)) as [L|L].
  { split; [discriminate|intros (_ & _ & _ & X); lia]. }
  split; [intros _; repeat split; auto; lia|]. intros _.
  destruct (_ =? 0); reflexivity.
Qed.

Lemma nodup_new : forall (l : list (bytes * N)) id v m, NoDup (map fst (l ++ (id, v) :: m)) ->
  existsb (fun t => bytes_eqb id (fst t)) l = false.
Proof.
  intros l id v m H. rewrite map_app in H. cbn [map fst] in H. apply NoDup_remove_2 in H.
  destruct (existsb _ l) eqn:X; [|reflexivity]. exfalso. apply H. apply existsb_exists in X as ([i w] & X1 & X2).
  apply bytes_eqb_eq in X2. cbn [fst] in X2. subst i. apply in_or_app. left. change id with (fst (id, w)). apply in_map. exact X1.
Qed.
Lemma att_loop_succ : forall fuel (x : bs (list (token_id * N))) input,
  (length input < fuel)%nat ->
  let es := entries 40 input in
  Forall (fun e => length e = 40%nat) es -> blen es <= bx_tokens_count (bs_box x) -> blen (bs_cb x) + blen es <= 20 ->
  NoDup (map fst (bs_cb x ++ map (fun e => (slice 0 32 e, num 32 8 e)) es)) ->
  exists x', box_tokens_loop attest_box_cb fuel None x input = (R_OK, x').
Proof.
  intros fuel. induction fuel as [|k IH]; intros x input Hf es F Hn H20 Nd; [lia|].
  cbn [box_tokens_loop]. destruct input as [|y0 input]; [eexists; reflexivity|]. remember (y0 :: input) as inp eqn:Ei.
  assert (Li : (0 < length inp)%nat) by (subst; cbn; lia). clear Ei.
  assert (L : (40 <= length inp)%nat).
  { destruct (entries_len 40 inp ltac:(lia) F) as (m & Em & _). destruct m; lia. }
  assert (L1 : length (firstn 40 inp) = 40%nat) by (apply firstn_length_le; lia).
  assert (Een : es = firstn 40 inp :: entries 40 (skipn 40 inp)).
  { unfold es. rewrite <- (entries_app 40 (firstn 40 inp)) by (assumption || lia). rewrite firstn_skipn. reflexivity. }
  rewrite Een in F, Hn, H20, Nd. clear es Een.
  apply Forall_cons_iff in F as [_ F]. rewrite blen_cons in Hn, H20. cbn [map] in Nd.
  assert (S1 : slice 0 32 (firstn 40 inp) = slice 0 32 inp).
  { unfold slice. cbn [skipn]. rewrite firstn_firstn. reflexivity. }
  assert (S2 : num 32 8 (firstn 40 inp) = num 32 8 inp).
  { unfold num, slice. f_equal. rewrite skipn_firstn_comm. rewrite firstn_firstn. reflexivity. }
  rewrite S1, S2 in Nd. set (id := slice 0 32 inp) in *.
  assert (Hone : exists x1, box_one_token attest_box_cb None x inp = (R_OK, x1, skipn 40 inp) /\
     bs_cb x1 = bs_cb x ++ [(id, num 32 8 inp)] /\ bx_tokens_count (bs_box x1) = bx_tokens_count (bs_box x) - 1).
  { unfold box_one_token. replace (bx_tokens_count (bs_box x) =? 0) with false by (symmetry; apply N.eqb_neq; lia).
    rewrite read_bytes_ex by (unfold ERGO_ID_LEN; lia). unfold ERGO_ID_LEN. fold id.
    unfold box_token_value, read_u64. rewrite read_be_ex by (rewrite skipn_length; lia).
    replace (skipn 8 (skipn 32 inp)) with (skipn 40 inp) by (rewrite skipn_add; reflexivity).
    change (num 0 8 (skipn 32 inp)) with (num 32 8 inp). set (v := num 32 8 inp) in *. clearbody v.
    cbn [attest_box_cb on_token]. unfold attest_token_cb. cbn [bs_feed bs_cb bs_box].
    rewrite (nodup_new _ _ _ _ Nd). unfold TOKEN_MAX_COUNT. replace (20 <=? blen (bs_cb x)) with false by (symmetry; apply N.leb_gt; lia).
    cbn [res_pass]. eexists. split; [reflexivity|]. split; reflexivity. }
  destruct Hone as (x1 & Hx & Ec & Et). 
  match goal with |- context [box_one_token ?a1 ?a2 ?a3 ?a4] =>
      replace (box_one_token a1 a2 a3 a4) with (R_OK, x1, skipn 40 inp) by (symmetry; exact Hx) end.
  apply IH.
  - rewrite skipn_length. lia.
  - exact F.
  - rewrite Et. lia.
  - rewrite Ec, blen_app, blen_cons. change (blen (@nil (token_id * N))) with 0. lia.
  - rewrite Ec, <- app_assoc. exact Nd.
Qed.

Lemma att_tokens_iff : forall b data, sb_wf b -> bytes_ok data = true ->
  (res_pass (fst (box_add_tokens attest_box_cb (gs (g_att b) [] (sb_tokens b)) data None)) = true <-> box_tokens_ok b data (sb_cmd b 0x03 data)).
Proof.
  intros b data W Hb. split.
  - intro H. destruct (box_add_tokens attest_box_cb (gs (g_att b) [] (sb_tokens b)) data None) as [r x] eqn:Eb. cbn [fst] in H.
    destruct (g_tokens_ok _ _ _ _ _ _ _ _ (sw_g _ W) Hb Eb H) as (G1 & G2 & G3 & G4 & G5 & _).
    destruct (att_call_ok b 3 data (fun s => box_add_tokens attest_box_cb s data None) r x W Hb eq_refl Eb H) as [W' _].
    pose proof (gw_toks _ (sw_g _ W)) as L. pose proof (gw_toks _ (sw_g _ W')) as L'.
    cbn [g_att g_toks g_ntok] in L, L', G2. rewrite blen_map in L, L', G2.
    split; [apply done_iff; exact G1|]. split; [lia|]. split.
    { apply entries_whole; [lia|]. eapply Forall_impl; [|exact G5]. intros e [He _]. exact He. }
    split; [exact L'|apply (sw_once _ W')].
  - intros (D & Ln & Fe & Ln' & Nd). apply done_iff in D. unfold box_add_tokens.
    cbn [gs bs_box gstate bx_state]. unfold g_box_state. cbn [g_att g_done g_toks g_ntok]. rewrite D, blen_map. cbn [negb].
    destruct (N.eqb_spec (blen (sb_tokens b)) (sb_ntokens b)) as [X|_]; [lia|]. cbn [negb].
    pose proof (gw_ntok _ (sw_g _ W)) as H20. cbn [g_att g_ntok] in H20.
    cbn [sb_cmd sb_tokens] in Ln', Nd. rewrite blen_app, blen_map in Ln'.
    destruct (att_loop_succ (Datatypes.S (length data)) (gs (g_att b) [] (sb_tokens b)) data) as [x' Hx].
    + lia.
    + apply entries_whole; [lia|exact Fe].
    + cbn [gs bs_box gstate bx_tokens_count g_att g_ntok g_toks]. rewrite blen_map. lia.
    + cbn [gs bs_cb]. lia.
    + exact Nd.
    + match goal with |- context [box_tokens_loop ?a1 ?a2 ?a3 ?a4 ?a5] =>
        replace (box_tokens_loop a1 a2 a3 a4 a5) with (R_OK, x') by (symmetry; exact Hx) end.
      unfold box_tokens_done. destruct (_ =? 0); [|reflexivity]. destruct (_ =? 0); reflexivity.
Qed.

(** As long as the box is not complete, its serializer is not. *)
Lemma more_open : forall b sub data call x, sb_wf b -> bytes_ok data = true -> attest_call sub data = Some call ->
  call (gs (g_att b) [] (sb_tokens b)) = (R_MORE_DATA, x) -> bx_state (bs_box x) <> BX_FINISHED.
Proof.
  intros b sub data call x W Hb Hc H.
  assert (Hs : sub = 0x02 \/ sub = 0x03 \/ sub = 0x04).
  { unfold attest_call in Hc. repeat match type of Hc with match ?n with _ => _ end = _ => destruct n; try discriminate end; auto. }
  destruct Hs as [-> | [-> | ->]]; injection Hc as <-.
  - destruct (g_tree_ok _ _ _ _ _ _ _ (sw_g _ W) H eq_refl) as (D & R & _ & _ & a1 & _ & _ & ->).
    cbn [gs bs_box gstate bx_state]. unfold g_box_state. cbn [g_set_tree g_done]. destruct (_ =? _); [discriminate R|]. discriminate.
  - destruct (g_tokens_ok _ _ _ _ _ _ _ _ (sw_g _ W) Hb H eq_refl) as (D & _ & R & _ & _ & a1 & _ & _ & ->).
    cbn [gs bs_box gstate bx_state]. unfold g_box_state. cbn [g_add_toks g_done g_ntok g_toks] in *. rewrite D.
    destruct (_ =? _); [discriminate R|]. discriminate.
  - destruct (g_regs_ok _ _ _ _ _ _ _ (sw_g _ W) H eq_refl) as (D & Et & _ & R & _ & _ & ->).
    cbn [gs bs_box gstate bx_state]. unfold g_box_state. cbn [g_add_regs g_done g_ntok g_toks g_regs g_regs_len] in *. rewrite D, Et, N.eqb_refl.
    destruct (_ =? _); [discriminate R|]. discriminate.
Qed.
Lemma approved_open : forall E key tr st, env_ok E -> history E key tr st ->
  match st_ctx st with X_ATTEST c => at_state c <> AT_FINISHED -> bx_state (at_box c) <> BX_FINISHED | _ => True end.
Proof.
  intros E key tr st Henv H. revert tr st H. apply history_ind_move; [exact I|].
  intros tr st e outs st' Hh Sh IH Hev M Hd _.
  assert (Init : forall s n a, attest_init_ok a -> bx_state (at_box (attest_new s n a)) <> BX_FINISHED).
  { intros s n a Ha. unfold attest_init_ok, attest_new in *. cbn [at_box]. unfold box_init in *.
    destruct (TOKEN_MAX_COUNT <? ap_tokens_count a); [discriminate Ha|]. destruct (MAX_TX_DATA_PART_LEN <? ap_tree_size a); [discriminate Ha|].
    destruct (MAX_TX_DATA_PART_LEN <? ap_regs_size a); [discriminate Ha|]. discriminate. }
  destruct M; try (exfalso; apply Hd; left; reflexivity); try exact I; try exact IH.
  - cbn [st_ctx set_ctx]. intros _. apply Init. assumption.
  - cbn [st_ctx set_ctx show]. intros _. apply Init. assumption.
  - cbn [st_ctx set_ctx attest_put at_box at_state]. intros _. destruct H5 as [K|[_ K]]; [|exact K].
    destruct (attest_inv_holds E key tr st Henv Hh) as [_ Inv]. rewrite H1 in Inv.
    destruct Inv as (start & body & _ & _ & _ & P). unfold attest_phase in P. rewrite H2 in P. destruct P as (_ & W & _ & _ & Eb). rewrite Eb in K.
    destruct Hev as (_ & _ & _ & _ & Hb & _). eapply more_open; eauto.
  - cbn [st_ctx set_ctx at_state]. congruence.
  - destruct b; [|exact I]. cbn. rewrite H0 in IH. intros _. apply IH. unfold shape in Sh. rewrite H0 in Sh. destruct Sh as [_ Sh].
    destruct (at_state c); [discriminate| |]; destruct Sh as [_ Sh]; rewrite H in Sh; discriminate Sh.
Qed.

(** ** One command *)

Lemma box_call_iff : forall E st c call, at_state c = AT_APPROVED ->
  (accepted (snd (attest_box_call E st c call)) = true <-> res_pass (fst (call (attest_bs c))) = true).
Proof.
  intros E st c call Ha. unfold attest_box_call. rewrite Ha. destruct (call (attest_bs c)) as [r x]. cbn [fst].
  destruct r; try (split; discriminate); [|split; reflexivity].
  split; [reflexivity|]. intros _. unfold check_box_finished. destruct (bx_state (at_box (attest_put c x))) eqn:Eb; try reflexivity.
  unfold box_id_hash. cbn [attest_put attest_bs bs_box at_box] in *. rewrite Eb. reflexivity.
Qed.

Theorem accepts_box : forall E key tr st sid start body sub data r, env_ok E -> history E key tr st ->
  attesting sid tr start body -> on_screen tr = None -> event_ok (Apdu CLA INS_ATTEST sub sid data r) -> sub <> 1 ->
  (accepted (snd (step E st (Apdu CLA INS_ATTEST sub sid data r))) = true <-> admissible_box (streamed_box start body) sub data).
Proof.
  intros E key tr st sid start body sub data r Henv H Sg Hs (_ & _ & _ & _ & Hb & Hl & _) N1.
  destruct (attest_state _ _ _ _ _ _ _ Henv H Sg Hs) as (c & B & Hk & Hc & Hx & Es & Ns & Hi & P).
  assert (Hl' : blen data <= 255) by (unfold blen; lia).
  rewrite attest_step. apply N.eqb_neq in Ns. rewrite Ns, orb_false_r.
  set (b := streamed_box start body) in *.
  assert (Call : forall call : bs (list (token_id * N)) -> res * bs (list (token_id * N)),
    (res_pass (fst (call (gs (g_att b) [] (sb_tokens b)))) = true -> sb_complete b = false) -> sb_wf b ->
    (accepted (snd (attest_box_call E st c call)) = true <-> res_pass (fst (call (gs (g_att b) [] (sb_tokens b)))) = true)).
  { intros call Hf _. unfold attest_phase in P. fold b in P. destruct (at_state c) eqn:Ea; [congruence| |].
    - unfold attest_box_call. rewrite Ea. split; [discriminate|]. intro K. apply Hf in K. destruct P as (_ & _ & K' & _). congruence.
    - rewrite box_call_iff by exact Ea. destruct P as (_ & _ & _ & _ & ->). reflexivity. }
  assert (W : sb_wf b). { unfold attest_phase in P. destruct (at_state c); [congruence|apply P|destruct P as (_ & P & _); exact P]. }
  assert (In_s : forall k, match st_cmd st with
      | CMD_ATTEST => match st_ctx st with X_ATTEST c => if sid =? at_session c then k c else handler_err st SW_BAD_SESSION_ID | _ => handler_err st SW_UB end
      | _ => handler_err st SW_BAD_STATE end = (k c : result)).
  { intro k. rewrite Hc, Hx, Es, N.eqb_refl. reflexivity. }
  assert (Cm : sb_complete b = true -> sb_done b = true /\ blen (sb_tokens b) = sb_ntokens b /\ blen (sb_regs b) = sb_regs_len b).
  { intro K. rewrite <- g_att_finished in K. unfold g_finished in K. apply andb_true_iff in K as [K K3]. apply andb_true_iff in K as [K1 K2].
    cbn [g_att g_done g_toks g_ntok g_regs g_regs_len] in *. rewrite blen_map in K2. apply N.eqb_eq in K2, K3. auto. }
  destruct (N.eq_dec sub 2) as [->|N2].
  { change (2 =? 0) with false. unfold handler_attest. rewrite B. cbv iota. rewrite In_s. rewrite Call; [apply att_tree_iff; assumption| |exact W].
    intro K. apply (att_tree_iff b data W Hl') in K as (K & _). destruct (sb_complete b) eqn:Ec; [|reflexivity]. exfalso. apply K. apply done_iff. apply Cm. reflexivity. }
  destruct (N.eq_dec sub 3) as [->|N3].
  { change (3 =? 0) with false. unfold handler_attest. rewrite B. cbv iota. rewrite In_s. rewrite Call; [apply att_tokens_iff; assumption| |exact W].
    intro K. apply (att_tokens_iff b data W Hb) in K as (_ & K & _). destruct (sb_complete b) eqn:Ec; [|reflexivity]. exfalso. destruct (Cm eq_refl) as (_ & K2 & _). lia. }
  destruct (N.eq_dec sub 4) as [->|N4].
  { change (4 =? 0) with false. unfold handler_attest. rewrite B. cbv iota. rewrite In_s. rewrite Call; [apply att_regs_iff; assumption| |exact W].
    intro K. apply (att_regs_iff b data W) in K as (_ & _ & K & _). destruct (sb_complete b) eqn:Ec; [|reflexivity]. exfalso. destruct (Cm eq_refl) as (_ & _ & K2). lia. }
  destruct (N.eq_dec sub 5) as [->|N5].
  { change (5 =? 0) with false. unfold handler_attest. rewrite B. cbv iota. rewrite In_s. unfold admissible_box, box_frame_ok. fold b.
    unfold attest_get_frame. unfold attest_phase in P. fold b in P. destruct (at_state c) eqn:Ea; [congruence| |].
    - destruct P as (_ & _ & Co & _ & X2 & _). destruct data as [|i l].
      { split; [discriminate|intros (_ & i & K & _); discriminate]. }
      rewrite read_u8_cons. cbn [rd bind]. destruct l as [|? ?]; cbn [finished].
      2:{ split; [discriminate|intros (_ & j & K & _); discriminate]. }
      rewrite X2, frames_count_ok by exact W. destruct (N.leb_spec (frame_total b) i) as [L|L].
      + split; [discriminate|]. intros (_ & j & K & L'). assert (j = i) as -> by congruence. lia.
      + split; [|reflexivity]. intros _. split; [exact Co|]. exists i. auto.
    - split; [discriminate|]. intros (K & _). exfalso. destruct P as (_ & _ & _ & _ & P).
      pose proof (approved_open E key tr st Henv H) as Op. rewrite Hx in Op. apply Op; [congruence|].
      change (at_box c) with (bs_box (attest_bs c)). rewrite P. cbn [gs bs_box gstate bx_state]. unfold g_box_state.
      destruct (Cm K) as (K1 & K2 & K3). cbn [g_att g_done g_toks g_ntok g_regs g_regs_len]. rewrite K1, blen_map, K2, K3, !N.eqb_refl. reflexivity. }
  assert (Q : admissible_box b sub data <-> False).
  { unfold admissible_box. repeat match goal with |- context [match ?n with _ => _ end] => destruct n; try tauto; try congruence end. }
  rewrite Q. destruct (sub =? 0); [split; [discriminate|tauto]|]. unfold handler_attest. rewrite B.
  repeat match goal with |- context [match ?n with _ => _ end] => is_var n; destruct n; try (split; [discriminate|tauto]); try congruence end.
Qed.
