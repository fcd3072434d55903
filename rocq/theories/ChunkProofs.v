(** Pieces accepted one after the other act as their concatenation accepted at once. *)
From Verif Require Import Lib Gve ErgoTree TxTable TxBox SpecChunk.

#[local] Arguments N.eqb : simpl never.
#[local] Arguments N.ltb : simpl never.
#[local] Arguments N.sub : simpl never.
#[local] Arguments blen : simpl never.

Section Chunk.
  Context {A : Type}.
  Variable cb : box_callbacks A.

  (** A call that merges. *)
  Definition merges {S} (call : S -> bytes -> res * S) : Prop := forall s a b r s1 r2 s2,
    call s a = (r, s1) -> res_pass r = true -> call s1 b = (r2, s2) -> res_pass r2 = true -> call s (a ++ b) = (r2, s2).
  Lemma merges_feed : forall S (call : S -> bytes -> res * S), merges call -> forall l s s', l <> [] -> feed call s l = Some s' ->
    exists r, call s (concat l) = (r, s') /\ res_pass r = true.
  Proof.
    intros S call M l. induction l as [|x l IH]; intros s s' N H; [congruence|]. cbn [feed] in H.
    destruct (call s x) as [r s1] eqn:E1. destruct (res_pass r) eqn:Er; [|discriminate].
    destruct l as [|y l].
    - cbn in H. injection H as <-. cbn. rewrite app_nil_r. eauto.
    - destruct (IH s1 s') as (r2 & H2 & P2); [discriminate|exact H|]. exists r2. split; [|exact P2].
      change (concat (x :: y :: l)) with (x ++ concat (y :: l)). eapply M; eauto.
  Qed.
  Lemma merges_same : forall S (call : S -> bytes -> res * S), merges call -> forall l1 l2 s s1 s2, l1 <> [] -> l2 <> [] ->
    concat l1 = concat l2 -> feed call s l1 = Some s1 -> feed call s l2 = Some s2 -> s1 = s2.
  Proof.
    intros S call M l1 l2 s s1 s2 N1 N2 E H1 H2. destruct (merges_feed _ _ M _ _ _ N1 H1) as (r1 & K1 & _).
    destruct (merges_feed _ _ M _ _ _ N2 H2) as (r2 & K2 & _). rewrite E in K1. congruence.
  Qed.

  Lemma finished_state : forall s r s', box_finished cb s = (r, s') -> res_pass r = true -> bx_state (bs_box s') = BX_FINISHED.
  Proof.
    intros s r s' H Hr. unfold box_finished in H. destruct (on_finished cb) as [f|].
    - destruct (f (bx_type (bs_box s)) (bs_cb s)) as [q a]. destruct (res_pass q) eqn:E; inv H; [reflexivity|congruence].
    - inv H. reflexivity.
  Qed.
  Lemma tree_added_state : forall s r s', ergo_tree_added cb s = (r, s') -> res_pass r = true -> bx_state (bs_box s') <> BX_INITIALIZED.
  Proof.
    assert (T : forall s r s', ergo_tree_added_tail cb s = (r, s') -> res_pass r = true -> bx_state (bs_box s') <> BX_INITIALIZED).
    { intros s r s' H Hr. unfold ergo_tree_added_tail in H.
      match type of H with (if ?b then _ else _) = _ => destruct b end; [|inv H; discriminate].
      match type of H with (if ?b then _ else _) = _ => destruct b end; [|inv H; discriminate].
      apply finished_state in H; [|exact Hr]. congruence. }
    intros s r s' H Hr. unfold ergo_tree_added in H. destruct (on_type cb) as [f|]; [|eapply T; eauto].
    destruct (f (bx_type (bs_box s)) (bx_value (bs_box s)) (bs_cb s)) as [q a].
    destruct (res_pass q) eqn:E; [eapply T; eauto|]. inv H. congruence.
  Qed.

  Lemma tree_merges : merges (box_add_tree cb).
  Proof.
    intros s a b r s1 r2 s2 H1 P1 H2 P2. unfold box_add_tree in *.
    destruct (bx_state (bs_box s)) eqn:Es; try (inv H1; discriminate).
    destruct (bx_tree_size (bs_box s) <? blen a) eqn:L1; [inv H1; discriminate|].
    destruct ((blen a <? bx_tree_size (bs_box s)) && (blen a <? MAX_DATA_CHUNK_LEN)) eqn:L2; [inv H1; discriminate|].
    destruct (bx_tree_size (bs_box s) - blen a =? 0) eqn:L3.
    - exfalso. apply tree_added_state in H1; [|exact P1]. destruct (bx_state (bs_box s1)); try contradiction; inv H2; discriminate.
    - inv H1. cbn [bs_box bs_with_box bs_feed box_set_tree_size bx_state bx_tree_size] in H2. rewrite Es in H2. rewrite !blen_app.
      unfold MAX_DATA_CHUNK_LEN in *.
      destruct (bx_tree_size (bs_box s) - blen a <? blen b) eqn:L4; [inv H2; discriminate|].
      destruct ((blen b <? bx_tree_size (bs_box s) - blen a) && (blen b <? 255)) eqn:L5; [inv H2; discriminate|].
      apply N.ltb_ge in L1, L4. apply N.eqb_neq in L3.
      replace (bx_tree_size (bs_box s) <? blen a + blen b) with false by (symmetry; apply N.ltb_ge; lia).
      replace ((blen a + blen b <? bx_tree_size (bs_box s)) && (blen a + blen b <? 255)) with false.
      2:{ symmetry. apply andb_false_iff in L2 as [L2|L2]; apply N.ltb_ge in L2; [lia|]. apply andb_false_iff. right. apply N.ltb_ge. lia. }
      replace (bx_tree_size (bs_box s) - (blen a + blen b)) with (bx_tree_size (bs_box s) - blen a - blen b) by lia.
      unfold bs_feed, bs_with_box, box_set_tree_size, box_set_type in *. cbn in *. rewrite <- app_assoc in H2. exact H2.
  Qed.
  Lemma regs_merges : merges (box_add_registers cb).
  Proof.
    intros s a b r s1 r2 s2 H1 P1 H2 P2. unfold box_add_registers in *.
    destruct (bx_state (bs_box s)) eqn:Es; try (inv H1; discriminate).
    destruct (bx_regs_size (bs_box s) <? blen a) eqn:L1; [inv H1; discriminate|].
    destruct (bx_regs_size (bs_box s) - blen a =? 0) eqn:L3.
    - exfalso. apply finished_state in H1; [|exact P1]. rewrite H1 in H2. inv H2; discriminate.
    - inv H1. cbn [bs_box bs_with_box bs_feed box_set_regs_size bx_state bx_regs_size] in H2. rewrite Es in H2. rewrite !blen_app.
      destruct (bx_regs_size (bs_box s) - blen a <? blen b) eqn:L4; [inv H2; discriminate|].
      apply N.ltb_ge in L1, L4. apply N.eqb_neq in L3.
      replace (bx_regs_size (bs_box s) <? blen a + blen b) with false by (symmetry; apply N.ltb_ge; lia).
      replace (bx_regs_size (bs_box s) - (blen a + blen b)) with (bx_regs_size (bs_box s) - blen a - blen b) by lia.
      unfold bs_feed, bs_with_box, box_set_regs_size in *. cbn in *. rewrite <- app_assoc in H2. exact H2.
  Qed.

  (** One token consumes its bytes and does not look further. *)
  Lemma read_be_app : forall n l v r t, read_be n l = Some (v, r) -> read_be n (l ++ t) = Some (v, r ++ t).
  Proof.
    intros n l v r t H. apply read_be_spec in H as (b & -> & L & ->). unfold read_be, read_bytes.
    rewrite <- app_assoc, app_length, L. replace (Nat.leb n (n + length (r ++ t))) with true by (symmetry; apply Nat.leb_le; lia).
    rewrite firstn_app, skipn_app, L, Nat.sub_diag, <- L, firstn_all, skipn_all. cbn. rewrite app_nil_r. reflexivity.
  Qed.
  Lemma read_bytes_app : forall n l v r t, read_bytes n l = Some (v, r) -> read_bytes n (l ++ t) = Some (v, r ++ t).
  Proof.
    intros n l v r t H. apply read_bytes_spec in H as [-> L]. unfold read_bytes.
    rewrite <- app_assoc, app_length, L. replace (Nat.leb n (n + length (r ++ t))) with true by (symmetry; apply Nat.leb_le; lia).
    rewrite firstn_app, skipn_app, L, Nat.sub_diag, <- L, firstn_all, skipn_all. cbn. rewrite app_nil_r. reflexivity.
  Qed.
  Lemma value_app : forall s id l s' rest t, box_token_value cb s id l = (R_OK, s', rest) ->
    box_token_value cb s id (l ++ t) = (R_OK, s', rest ++ t) /\ (length rest < length l)%nat.
  Proof.
    intros s id l s' rest t H. unfold box_token_value, read_u64 in *. destruct (read_be 8 l) as [[v r]|] eqn:E; [|inv H].
    rewrite (read_be_app _ _ _ _ t E). apply read_be_spec in E as (b & -> & L & _). rewrite app_length.
    destruct (on_token cb) as [f|].
    - match type of H with (let '(_, _) := ?x in _) = _ => destruct x as [q a] end. destruct (res_pass q) eqn:Eq; inv H; [split; [reflexivity|lia]|discriminate Eq].
    - inv H. split; [reflexivity|lia].
  Qed.
  Lemma one_app : forall table s l s' rest t, box_one_token cb table s l = (R_OK, s', rest) ->
    box_one_token cb table s (l ++ t) = (R_OK, s', rest ++ t) /\ (length rest < length l)%nat.
  Proof.
    intros table s l s' rest t H. unfold box_one_token, read_u32 in *. destruct (bx_tokens_count (bs_box s) =? 0); [inv H|].
    destruct table as [[d ids]|].
    - destruct (read_be 4 l) as [[v r]|] eqn:E; [|inv H]. rewrite (read_be_app _ _ _ _ t E). apply read_be_spec in E as (b & -> & L & _).
      destruct (d <=? v); [inv H|]. apply (value_app _ _ _ _ _ t) in H as [-> H]. split; [reflexivity|]. rewrite app_length. lia.
    - destruct (read_bytes ERGO_ID_LEN l) as [[v r]|] eqn:E; [|inv H]. rewrite (read_bytes_app _ _ _ _ t E). apply read_bytes_spec in E as [-> L].
      apply (value_app _ _ _ _ _ t) in H as [-> H]. split; [reflexivity|]. rewrite app_length. lia.
  Qed.
  Lemma loop_fuel : forall table f1 f2 s l, (length l < f1)%nat -> (length l < f2)%nat ->
    box_tokens_loop cb f1 table s l = box_tokens_loop cb f2 table s l.
  Proof.
    intros table f1. induction f1 as [|f1 IH]; intros f2 s l H1 H2; [lia|]. destruct f2 as [|f2]; [lia|]. cbn [box_tokens_loop].
    destruct l as [|x l]; [reflexivity|]. destruct (box_one_token cb table s (x :: l)) as [[r s'] rest] eqn:E. destruct r; try reflexivity.
    apply (one_app _ _ _ _ _ []) in E as [_ E]. apply IH; lia.
  Qed.
  Lemma loop_app : forall table f1 f2 s l s1 t, box_tokens_loop cb f1 table s l = (R_OK, s1) -> (length (l ++ t) < f2)%nat ->
    box_tokens_loop cb f2 table s (l ++ t) = box_tokens_loop cb f2 table s1 t.
  Proof.
    intros table f1. induction f1 as [|f1 IH]; intros f2 s l s1 t H L; [discriminate|]. cbn [box_tokens_loop] in H.
    destruct l as [|x l]; [inv H; reflexivity|]. destruct (box_one_token cb table s (x :: l)) as [[r s'] rest] eqn:E. destruct r; try discriminate.
    apply (one_app _ _ _ _ _ t) in E as [E1 E2].
    destruct f2 as [|f2]; [lia|]. transitivity (box_tokens_loop cb f2 table s' (rest ++ t)); [cbn [box_tokens_loop app]; cbn [app] in E1; rewrite E1; reflexivity|].
    rewrite app_length in L. cbn [length] in *.
    rewrite (IH f2 _ _ _ _ H) by (rewrite app_length; lia). apply loop_fuel; lia.
  Qed.
  Lemma loop_state : forall table f s l r s1, box_tokens_loop cb f table s l = (r, s1) -> res_pass r = true ->
    bx_state (bs_box s1) = bx_state (bs_box s).
  Proof.
    intros table f. induction f as [|f IH]; intros s l r s1 H Hr; [inv H; discriminate|]. cbn [box_tokens_loop] in H.
    destruct l as [|x l]; [inv H; reflexivity|]. destruct (box_one_token cb table s (x :: l)) as [[q s'] rest] eqn:E.
    assert (K : q = R_OK -> bx_state (bs_box s') = bx_state (bs_box s)).
    { intros ->. unfold box_one_token in E. destruct (bx_tokens_count (bs_box s) =? 0); [inv E|].
      assert (V : forall z id l2, box_token_value cb z id l2 = (R_OK, s', rest) -> bx_state (bs_box s') = bx_state (bs_box z)).
      { intros z id l2 V. unfold box_token_value in V. destruct (read_u64 l2) as [[v r0]|]; [|inv V]. destruct (on_token cb) as [g|].
        - match type of V with (let '(_, _) := ?x in _) = _ => destruct x as [q a] end. destruct (res_pass q) eqn:Eq; inv V; [reflexivity|discriminate Eq].
        - inv V. reflexivity. }
      destruct table as [[d ids]|].
      - destruct (read_u32 (x :: l)) as [[v r0]|]; [|inv E]. destruct (d <=? v); [inv E|]. apply V in E. exact E.
      - destruct (read_bytes ERGO_ID_LEN (x :: l)) as [[v r0]|]; [|inv E]. apply V in E. exact E. }
    destruct q; try (inv H; discriminate).
    - rewrite <- (K eq_refl). eapply IH; eauto.
    - exfalso. clear K H. unfold box_one_token in E. destruct (bx_tokens_count (bs_box s) =? 0); [inv E|].
      assert (V : forall z id l2, box_token_value cb z id l2 <> (R_MORE_DATA, s', rest)).
      { intros z id l2 V. unfold box_token_value in V. destruct (read_u64 l2) as [[v r0]|]; [|inv V]. destruct (on_token cb) as [g|].
        - match type of V with (let '(_, _) := ?x in _) = _ => destruct x as [q a] end. destruct (res_pass q) eqn:Eq; inv V. discriminate Eq.
        - inv V. }
      destruct table as [[d ids]|].
      + destruct (read_u32 (x :: l)) as [[v r0]|]; [|inv E]. destruct (d <=? v); [inv E|]. eapply V; eauto.
      + destruct (read_bytes ERGO_ID_LEN (x :: l)) as [[v r0]|]; [|inv E]. eapply V; eauto.
  Qed.
  Lemma tokens_merges : forall table, merges (fun s d => box_add_tokens cb s d table).
  Proof.
    intros table s a b r s1 r2 s2 H1 P1 H2 P2. unfold box_add_tokens in *.
    destruct (bx_state (bs_box s)) eqn:Es; try (inv H1; discriminate).
    destruct (box_tokens_loop cb (S (length a)) table s a) as [q x] eqn:L1.
    assert (q = R_OK).
    { destruct q; try reflexivity; inv H1; try discriminate. exfalso.
      clear - L1. revert L1. generalize (S (length a)) as f. intros f. revert s a. induction f as [|f IH]; intros s a H; [discriminate|].
      cbn [box_tokens_loop] in H. destruct a as [|y l]; [discriminate|]. destruct (box_one_token cb table s (y :: l)) as [[q s'] rest] eqn:E.
      destruct q; try discriminate; [eapply IH; eauto|]. inv H. clear IH. unfold box_one_token in E. destruct (bx_tokens_count (bs_box s) =? 0); [inv E|].
      assert (V : forall z id l2, box_token_value cb z id l2 <> (R_MORE_DATA, s1, rest)).
      { intros z id l2 V. unfold box_token_value in V. destruct (read_u64 l2) as [[v r0]|]; [|inv V]. destruct (on_token cb) as [g|].
        - match type of V with (let '(_, _) := ?x in _) = _ => destruct x as [q a] end. destruct (res_pass q) eqn:Eq; inv V. discriminate Eq.
        - inv V. }
      destruct table as [[d ids]|].
      + destruct (read_u32 (y :: l)) as [[v r0]|]; [|inv E]. destruct (d <=? v); [inv E|]. eapply V; eauto.
      + destruct (read_bytes ERGO_ID_LEN (y :: l)) as [[v r0]|]; [|inv E]. eapply V; eauto. }
    subst q. pose proof (loop_state _ _ _ _ _ _ L1 eq_refl) as St. rewrite Es in St.
    assert (X : s1 = x /\ r = R_MORE_DATA).
    { unfold box_tokens_done in H1. destruct (bx_tokens_count (bs_box x) =? 0); [|inv H1; auto].
      destruct (bx_regs_size (bs_box x) =? 0).
      - apply finished_state in H1; [|exact P1]. rewrite H1 in H2. inv H2; discriminate.
      - inv H1. cbn in H2. inv H2; discriminate. }
    destruct X as [-> ->]. rewrite St in H2.
    rewrite (loop_app _ _ (S (length (a ++ b))) _ _ _ b L1) by lia.
    rewrite (loop_fuel table (S (length (a ++ b))) (S (length b))) by (rewrite ?app_length; lia). exact H2.
  Qed.
  Lemma small_tree_one_chunk : forall (s : bs A) chunk r s', bx_tree_size (bs_box s) <= 255 ->
    box_add_tree cb s chunk = (r, s') -> res_pass r = true -> blen chunk = bx_tree_size (bs_box s).
  Proof.
    intros s chunk r s' Hs H Hr. unfold box_add_tree in H. destruct (bx_state (bs_box s)); try (inv H; discriminate).
    destruct (bx_tree_size (bs_box s) <? blen chunk) eqn:L1; [inv H; discriminate|].
    destruct ((blen chunk <? bx_tree_size (bs_box s)) && (blen chunk <? MAX_DATA_CHUNK_LEN)) eqn:L2; [inv H; discriminate|].
    apply N.ltb_ge in L1. unfold MAX_DATA_CHUNK_LEN in L2. apply andb_false_iff in L2 as [L2|L2]; apply N.ltb_ge in L2; lia.
  Qed.
End Chunk.

Lemma tree_chunks_same : forall A (cb : box_callbacks A) s l1 l2 s1 s2, l1 <> [] -> l2 <> [] -> concat l1 = concat l2 ->
  feed (box_add_tree cb) s l1 = Some s1 -> feed (box_add_tree cb) s l2 = Some s2 -> s1 = s2.
Proof. intros A cb s l1 l2 s1 s2. apply merges_same, tree_merges. Qed.
Lemma tokens_chunks_same : forall A (cb : box_callbacks A) table s l1 l2 s1 s2, l1 <> [] -> l2 <> [] -> concat l1 = concat l2 ->
  feed (fun s d => box_add_tokens cb s d table) s l1 = Some s1 -> feed (fun s d => box_add_tokens cb s d table) s l2 = Some s2 -> s1 = s2.
Proof. intros A cb table s l1 l2 s1 s2. apply merges_same, tokens_merges. Qed.
Lemma regs_chunks_same : forall A (cb : box_callbacks A) s l1 l2 s1 s2, l1 <> [] -> l2 <> [] -> concat l1 = concat l2 ->
  feed (box_add_registers cb) s l1 = Some s1 -> feed (box_add_registers cb) s l2 = Some s2 -> s1 = s2.
Proof. intros A cb s l1 l2 s1 s2. apply merges_same, regs_merges. Qed.
