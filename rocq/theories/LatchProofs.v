(** A serializer that failed stays failed. *)
From Verif Require Import Lib TxTable TxBox TxInput TxFull SpecLatch.
#[local] Arguments N.eqb : simpl never.
#[local] Arguments N.ltb : simpl never.
#[local] Arguments N.leb : simpl never.
#[local] Arguments N.sub : simpl never.
#[local] Arguments blen : simpl never.

Lemma calls_dead : forall {C S : Type} (run : C -> S -> res * S) (dead : S -> Prop) (same : S -> S -> Prop),
  (forall s, same s s) -> (forall a b c, same a b -> same b c -> same a c) ->
  (forall c s, dead s -> fst (run c s) = R_BAD_STATE /\ dead (snd (run c s)) /\ same s (snd (run c s))) ->
  forall l s, dead s -> fst (calls run l s) = repeat R_BAD_STATE (length l) /\ same s (snd (calls run l s)).
Proof.
  intros C S run dead same Hr Ht Hd l. induction l as [|c l IH]; intros s H; cbn [calls length repeat]; [split; [reflexivity|apply Hr]|].
  destruct (Hd c s H) as (E1 & E2 & E3). destruct (run c s) as [r s1]. cbn [fst snd] in *. subst r.
  destruct (IH s1 E2) as [K1 K2]. destruct (calls run l s1) as [rs s2]. cbn [fst snd] in *. subst rs. split; [reflexivity|eauto].
Qed.

Section Latch.
  Context {A : Type}.

  (** ** Box *)
  Definition same_bs (s t : bs A) : Prop := bs_hash t = bs_hash s /\ bs_cb t = bs_cb s.
  Lemma box_dead : forall blake cb c (s : bs A), bx_state (bs_box s) = BX_ERROR ->
    fst (run_box blake cb c s) = R_BAD_STATE /\ bx_state (bs_box (snd (run_box blake cb c s))) = BX_ERROR /\ same_bs s (snd (run_box blake cb c s)).
  Proof.
    intros blake cb c s H. destruct c; cbn [run_box]; unfold box_add_tree, box_add_miners_fee_tree, box_add_change_tree, box_add_tokens,
      box_add_registers, box_id_hash; rewrite H; cbn; repeat split; reflexivity.
  Qed.
  Lemma finished_fails : forall cb (s : bs A) r s', box_finished cb s = (r, s') -> r <> R_OK -> r <> R_MORE_DATA -> bx_state (bs_box s') = BX_ERROR.
  Proof.
    intros cb s r s' H H1 H2. unfold box_finished in H. destruct (on_finished cb) as [f|]; [|injection H as <- <-; congruence].
    destruct (f _ _) as [r0 a]. destruct (res_pass r0); injection H as <- <-; [congruence|reflexivity].
  Qed.
  Lemma added_fails : forall cb (s : bs A) r s', ergo_tree_added cb s = (r, s') -> r <> R_OK -> r <> R_MORE_DATA -> bx_state (bs_box s') = BX_ERROR.
  Proof.
    intros cb s r s' H H1 H2. unfold ergo_tree_added in H.
    assert (T : forall s, ergo_tree_added_tail cb s = (r, s') -> bx_state (bs_box s') = BX_ERROR).
    { intros t Ht. unfold ergo_tree_added_tail in Ht. destruct (_ =? 0); [|injection Ht as <- <-; congruence].
      destruct (_ =? 0); [eapply finished_fails; eauto|injection Ht as <- <-; congruence]. }
    destruct (on_type cb) as [f|]; [|eauto]. destruct (f _ _ _) as [r0 a]. destruct (res_pass r0); [eauto|]. injection H as <- <-. reflexivity.
  Qed.
  Lemma value_fails : forall cb (s : bs A) id l r s' rest, box_token_value cb s id l = (r, s', rest) ->
    (r = R_OK /\ (length rest + 8)%nat = length l) \/ (r <> R_OK /\ bx_state (bs_box s') = BX_ERROR).
  Proof.
    intros cb s id l r s' rest H. unfold box_token_value in H. unfold read_u64, read_be, read_bytes in H.
    destruct (Nat.leb 8 (length l)) eqn:L; [|injection H as <- <- <-; right; split; [discriminate|reflexivity]]. apply Nat.leb_le in L.
    assert (K : (length (skipn 8 l) + 8)%nat = length l) by (rewrite skipn_length; lia).
    destruct (on_token cb) as [f|]; [|injection H as <- <- <-; left; split; [reflexivity|exact K]].
    destruct (f _ _ _ _) as [r0 a]. destruct (res_pass r0) eqn:P; injection H as <- <- <-; [left; split; [reflexivity|exact K]|right; split; [intros ->; discriminate P|reflexivity]].
  Qed.
  Lemma one_token_fails : forall cb table (s : bs A) l r s' rest, l <> [] -> box_one_token cb table s l = (r, s', rest) ->
    (r = R_OK /\ (table <> None -> (length rest + 12)%nat = length l)) \/ (r <> R_OK /\ bx_state (bs_box s') = BX_ERROR) \/
    (r = R_BAD_TOKEN_INDEX /\ table <> None /\ (0 < length l < 4)%nat).
  Proof.
    intros cb table s l r s' rest Hl H. unfold box_one_token in H. destruct (_ =? 0); [injection H as <- <- <-; right; left; split; [discriminate|reflexivity]|].
    destruct table as [[d ids]|].
    - unfold read_u32, read_be, read_bytes in H. destruct (Nat.leb 4 (length l)) eqn:L.
      + apply Nat.leb_le in L. destruct (d <=? _); [injection H as <- <- <-; right; left; split; [discriminate|reflexivity]|].
        apply value_fails in H as [[-> K]|H]; [left; split; [reflexivity|]|right; left; exact H]. rewrite skipn_length in K. lia.
      + apply Nat.leb_gt in L. injection H as <- <- <-. right. right. split; [reflexivity|]. split; [discriminate|]. destruct l; [congruence|cbn [length] in *; lia].
    - destruct (read_bytes _ l) as [[id rest0]|]; [|injection H as <- <- <-; right; left; split; [discriminate|reflexivity]].
      apply value_fails in H as [[-> K]|H]; [left; split; [reflexivity|congruence]|right; left; exact H].
  Qed.
  Lemma tokens_fails : forall cb table fuel (s : bs A) l r s', box_tokens_loop cb fuel table s l = (r, s') -> r <> R_OK -> r <> R_MORE_DATA -> r <> R_UB ->
    bx_state (bs_box s') = BX_ERROR \/ (r = R_BAD_TOKEN_INDEX /\ table <> None /\ short_index l).
  Proof.
    intros cb table fuel. induction fuel as [|fuel IH]; intros s l r s' H H1 H2 H3; cbn [box_tokens_loop] in H; [injection H as <- <-; congruence|].
    destruct l as [|x l]; [injection H as <- <-; congruence|]. set (y := x :: l) in *.
    destruct (box_one_token cb table s y) as [[r0 s0] rest] eqn:E. apply one_token_fails in E; [|discriminate].
    destruct E as [[-> K]|[K|(-> & K1 & K2)]].
    - apply IH in H; auto. destruct H as [H|(-> & T & k & n & L & R)]; [left; exact H|right]. split; [reflexivity|]. split; [exact T|].
      exists (S k), n. specialize (K T). split; [lia|exact R].
    - destruct K as [K0 K]. destruct r0; try congruence; injection H as <- <-; left; exact K.
    - injection H as <- <-. right. split; [reflexivity|]. split; [exact K1|]. exists 0%nat, (length y). split; [lia|exact K2].
  Qed.
  Lemma box_fails : forall blake cb c (s : bs A) r s', run_box blake cb c s = (r, s') -> failed r ->
    bx_state (bs_box s') = BX_ERROR \/
    (exists l table, c = B_TOKENS l (Some table) /\ r = R_BAD_TOKEN_INDEX /\ short_index l).
  Proof.
    intros blake cb c s r s' H (H1 & H2 & H3).
    assert (T : bx_state (bs_box s') = BX_ERROR -> bx_state (bs_box s') = BX_ERROR \/
      (exists l table, c = B_TOKENS l (Some table) /\ r = R_BAD_TOKEN_INDEX /\ short_index l)) by auto.
    destruct c; cbn [run_box] in H.
    - apply T. unfold box_add_tree in H. destruct (bx_state _); try (injection H as <- <-; reflexivity).
      destruct (_ <? _); [injection H as <- <-; reflexivity|]. destruct (_ && _); [injection H as <- <-; reflexivity|].
      destruct (_ =? 0); [eapply added_fails; eauto|injection H as <- <-; congruence].
    - apply T. unfold box_add_miners_fee_tree in H. destruct (bx_state _); try (injection H as <- <-; reflexivity). eapply added_fails; eauto.
    - apply T. unfold box_add_change_tree in H. destruct (bx_state _); try (injection H as <- <-; reflexivity). eapply added_fails; eauto.
    - clear T. unfold box_add_tokens in H. destruct (bx_state _); try (injection H as <- <-; left; reflexivity).
      destruct (box_tokens_loop cb _ table s entries) as [r0 s0] eqn:E.
      assert (D : r0 = R_OK \/ r0 <> R_OK) by (destruct r0; (left; reflexivity) || (right; discriminate)). destruct D as [->|D].
      + left. unfold box_tokens_done in H. destruct (_ =? 0); [|injection H as <- <-; congruence].
        destruct (_ =? 0); [eapply finished_fails; eauto|injection H as <- <-; congruence].
      + assert (H' : (r0, s0) = (r, s')) by (destruct r0; congruence). injection H' as -> ->.
        apply tokens_fails in E; auto. destruct E as [E|(E1 & E2 & E3)]; [left; exact E|right]. destruct table as [t|]; [|congruence]. eauto.
    - apply T. unfold box_add_registers in H. destruct (bx_state _); try (injection H as <- <-; reflexivity).
      destruct (_ <? _); [injection H as <- <-; reflexivity|]. destruct (_ =? 0); [eapply finished_fails; eauto|injection H as <- <-; congruence].
    - apply T. unfold box_id_hash in H. destruct (bx_state _); try (injection H as <- <-; reflexivity). injection H as <- <-. congruence.
  Qed.
  Lemma box_latch : forall blake cb c (s : bs A) r s', run_box blake cb c s = (r, s') -> failed r ->
    (forall l table, c = B_TOKENS l (Some table) -> r = R_BAD_TOKEN_INDEX -> ~ short_index l) ->
    forall l, fst (calls (run_box blake cb) l s') = repeat R_BAD_STATE (length l) /\
      bs_hash (snd (calls (run_box blake cb) l s')) = bs_hash s' /\ bs_cb (snd (calls (run_box blake cb) l s')) = bs_cb s'.
  Proof.
    intros blake cb c s r s' H Hf Hx l. apply (calls_dead _ (fun s => bx_state (bs_box s) = BX_ERROR) same_bs).
    - split; reflexivity.
    - intros a b d [] []. split; congruence.
    - intros d t Hd. apply box_dead. exact Hd.
    - destruct (box_fails _ _ _ _ _ _ H Hf) as [K|(l0 & t & Ec & Er & Es)]; [exact K|]. exfalso. eapply Hx; eauto.
  Qed.
  Lemma box_init_latch : forall value tree height tokens regs hash (a : A) r s', box_init value tree height tokens regs hash a = (r, s') -> failed r ->
    forall blake cb l, fst (calls (run_box blake cb) l s') = repeat R_BAD_STATE (length l) /\
      bs_hash (snd (calls (run_box blake cb) l s')) = bs_hash s' /\ bs_cb (snd (calls (run_box blake cb) l s')) = bs_cb s'.
  Proof.
    intros value tree height tokens regs hash a r s' H [H1 _] blake cb l. apply (calls_dead _ (fun s => bx_state (bs_box s) = BX_ERROR) same_bs).
    - split; reflexivity.
    - intros x b d [] []. split; congruence.
    - intros d t Hd. apply box_dead. exact Hd.
    - unfold box_init in H. repeat (destruct (_ <? _); [injection H as <- <-; reflexivity|]). injection H as <- <-. congruence.
  Qed.

  (** ** Input *)
  Definition same_ins (s t : ins A) : Prop := is_hash t = is_hash s /\ is_cb t = is_cb s.
  Lemma input_dead : forall cb c (s : ins A), in_state (is_in s) = IN_ERROR ->
    fst (run_input cb c s) = R_BAD_STATE /\ in_state (is_in (snd (run_input cb c s))) = IN_ERROR /\ same_ins s (snd (run_input cb c s)).
  Proof.
    intros cb c s H. destruct c; cbn [run_input]; unfold input_add_tokens, input_add_context_extension; rewrite H; cbn; repeat split; reflexivity.
  Qed.
  Lemma input_loop_fails : forall cb fuel (s : ins A) l r s', input_tokens_loop cb fuel s l = (r, s') -> r <> R_OK -> r <> R_UB -> in_state (is_in s') = IN_ERROR.
  Proof.
    intros cb fuel. induction fuel as [|fuel IH]; intros s l r s' H H1 H2; cbn [input_tokens_loop] in H; [injection H as <- <-; congruence|].
    destruct l as [|x l]; [injection H as <- <-; congruence|].
    destruct (read_bytes _ _) as [[id rest]|]; [|injection H as <- <-; reflexivity].
    destruct (read_u64 rest) as [[v rest']|]; [|injection H as <- <-; reflexivity].
    destruct cb as [f|]; [|eapply IH; eauto]. destruct (f _ _ _ _) as [r0 a]. destruct r0; try (injection H as <- <-; reflexivity). eapply IH; eauto.
  Qed.
  Lemma input_fails : forall cb c (s : ins A) r s', run_input cb c s = (r, s') -> failed r -> in_state (is_in s') = IN_ERROR.
  Proof.
    intros cb c s r s' H (H1 & H2 & H3). destruct c; cbn [run_input] in H.
    - unfold input_add_tokens in H. destruct (in_state _); try (injection H as <- <-; reflexivity).
      destruct (negb _); [injection H as <- <-; reflexivity|]. destruct (_ <=? _); [injection H as <- <-; reflexivity|].
      destruct (negb _); [injection H as <- <-; reflexivity|]. destruct (input_tokens_loop cb _ s tokens) as [r0 s0] eqn:E.
      assert (D : r0 = R_OK \/ r0 <> R_OK) by (destruct r0; (left; reflexivity) || (right; discriminate)). destruct D as [->|D].
      + unfold input_frame_done in H. destruct (_ =? _); [destruct (_ =? 0)|]; injection H as <- <-; congruence.
      + assert (H' : (r0, s0) = (r, s')) by (destruct r0; congruence). injection H' as -> ->. eapply input_loop_fails; eauto.
    - unfold input_add_context_extension in H. destruct (in_state _); try (injection H as <- <-; reflexivity).
      destruct (_ <? _); [injection H as <- <-; reflexivity|]. destruct (_ =? 0); injection H as <- <-; congruence.
  Qed.
  Lemma input_latch : forall cb c (s : ins A) r s', run_input cb c s = (r, s') -> failed r ->
    forall l, fst (calls (run_input cb) l s') = repeat R_BAD_STATE (length l) /\
      is_hash (snd (calls (run_input cb) l s')) = is_hash s' /\ is_cb (snd (calls (run_input cb) l s')) = is_cb s'.
  Proof.
    intros cb c s r s' H Hf l. apply (calls_dead _ (fun s => in_state (is_in s) = IN_ERROR) same_ins).
    - split; reflexivity.
    - intros a b d [] []. split; congruence.
    - intros d t Hd. apply input_dead. exact Hd.
    - eapply input_fails; eauto.
  Qed.
  Lemma input_init_latch : forall id n e r c (hash : bytes) (a : A), input_init id n e = (r, c) -> failed r ->
    forall cb l, fst (calls (run_input cb) l (mk_ins c hash a)) = repeat R_BAD_STATE (length l) /\
      is_hash (snd (calls (run_input cb) l (mk_ins c hash a))) = hash /\ is_cb (snd (calls (run_input cb) l (mk_ins c hash a))) = a.
  Proof.
    intros id n e r c hash a H [H1 _] cb l. change hash with (is_hash (mk_ins c hash a)) at 3. change a with (is_cb (mk_ins c hash a)) at 5.
    apply (calls_dead _ (fun s => in_state (is_in s) = IN_ERROR) same_ins).
    - split; reflexivity.
    - intros x b d [] []. split; congruence.
    - intros d t Hd. apply input_dead. exact Hd.
    - unfold input_init in H. destruct (_ || _); injection H as <- <-; [reflexivity|congruence].
  Qed.

  (** ** Transaction *)
  Section Full.
  Variables (tget : A -> token_table) (tset : token_table -> A -> A) (box_cb : box_callbacks A)
    (input_cb : bytes -> token_id -> N -> A -> res * A).
  Notation run := (run_full tget tset box_cb input_cb).
  Definition same_fs (s t : fs A) : Prop := fs_hash t = fs_hash s /\ fs_cb t = fs_cb s.
  Lemma full_dead : forall c (s : fs A), fl_state (fs_full s) = FL_ERROR ->
    fst (run c s) = R_BAD_STATE /\ fl_state (fs_full (snd (run c s))) = FL_ERROR /\ same_fs s (snd (run c s)).
  Proof.
    intros c s H. destruct c; cbn [run_full]; unfold full_add_tokens, full_add_input, full_set_input_callback, full_add_input_tokens,
      full_add_input_context_extension, full_add_data_inputs, full_add_box, full_set_box_callbacks, full_add_box_ergo_tree,
      full_add_box_change_tree, full_add_box_miners_fee_tree, full_add_box_tokens, full_add_box_registers; rewrite H; cbn; repeat split; reflexivity.
  Qed.
  Ltac done H := injection H as <- <-; (reflexivity || congruence).
  Lemma data_finished_ok : forall (s : fs A) r s', data_inputs_finished tget s = (r, s') -> r = R_OK.
  Proof. intros s r s' H. unfold data_inputs_finished in H. congruence. Qed.
  Lemma input_finished_ok : forall (s : fs A) r s', input_finished tget s = (r, s') -> r = R_OK.
  Proof.
    intros s r s' H. unfold input_finished in H. destruct (_ =? 0); [|congruence]. destruct (_ =? 0); [eapply data_finished_ok; eauto|congruence].
  Qed.
  Lemma output_finished_ok : forall (s : fs A) r s', output_finished s = (r, s') -> r = R_OK.
  Proof. intros s r s' H. unfold output_finished in H. destruct (_ =? 0); congruence. Qed.
  Lemma on_input_fails : forall (s : fs A) call k r s', on_input input_cb s call k = (r, s') ->
    (forall t r t', k t = (r, t') -> r = R_OK \/ r = R_UB) -> failed r -> fl_state (fs_full s') = FL_ERROR.
  Proof.
    intros s call k r s' H Hk (H1 & H2 & H3). unfold on_input in H. destruct (fl_union _) as [|c set|b set]; try (done H).
    destruct (call _ _) as [r0 i]. destruct r0; try (done H). apply Hk in H as [->| ->]; congruence.
  Qed.
  Lemma on_box_fails : forall (s : fs A) call more r s', on_box box_cb s call more = (r, s') -> failed r -> fl_state (fs_full s') = FL_ERROR.
  Proof.
    intros s call more r s' H (H1 & H2 & H3). unfold on_box in H. destruct (fl_union _) as [|c set|b set]; try (done H).
    destruct (call _ _) as [r0 i].
    assert (F : forall t, match bx_state (bs_box i) with BX_FINISHED => output_finished t | _ => (R_OK, t) end = (r, s') -> r = R_OK).
    { intros t Ht. destruct (bx_state _); try congruence. eapply output_finished_ok; eauto. }
    destruct r0; try (done H); try (apply F in H; congruence). destruct more; [done H|apply F in H; congruence].
  Qed.
  Lemma data_loop_fails : forall fuel (s : fs A) l r s', data_inputs_loop fuel s l = (r, s') -> failed r -> fl_state (fs_full s') = FL_ERROR.
  Proof.
    intros fuel. induction fuel as [|fuel IH]; intros s l r s' H Hf; pose proof Hf as (H1 & H2 & H3); cbn [data_inputs_loop] in H; [done H|].
    destruct l; [done H|]. destruct (_ =? 0); [done H|]. destruct (read_bytes _ _) as [[id rest]|]; [|done H]. eapply IH; eauto.
  Qed.
  Lemma full_fails : forall c (s : fs A) r s', run c s = (r, s') -> failed r -> fl_state (fs_full s') = FL_ERROR.
  Proof.
    intros c s r s' H Hf. pose proof Hf as (H1 & H2 & H3). destruct c; cbn [run_full] in H.
    - unfold full_add_tokens in H. destruct (fl_state _); try (done H). destruct (table_add _ _ _) as [r0 t]. destruct r0; try (done H).
    - unfold full_add_input in H. destruct (fl_state _); try (done H). destruct (fl_union _); try (done H). destruct (in_state _); try (done H).
      destruct (_ =? 0); [done H|]. destruct (input_init _ _ _) as [r0 c']. destruct (res_pass r0); done H.
    - unfold full_set_input_callback in H. destruct (fl_state _); try (done H). destruct (fl_union _); done H.
    - unfold full_add_input_tokens in H. destruct (fl_state _); try (done H). eapply on_input_fails; eauto. intros t r0 t' Ht.
      cbv beta in Ht. destruct (fl_union _); try (right; congruence). destruct (in_state _); try (left; congruence). left. eapply input_finished_ok; eauto.
    - unfold full_add_input_context_extension in H. destruct (fl_state _); try (done H). eapply on_input_fails; eauto. intros t r0 t' Ht.
      left. eapply input_finished_ok; eauto.
    - unfold full_add_data_inputs in H. destruct (fl_state _); try (done H). destruct (data_inputs_loop _ s ids) as [r0 s0] eqn:E.
      assert (D : r0 = R_OK \/ r0 <> R_OK) by (destruct r0; (left; reflexivity) || (right; discriminate)). destruct D as [->|D].
      + destruct (_ =? 0); [|done H]. apply data_finished_ok in H. congruence.
      + assert (H' : (r0, s0) = (r, s')) by (destruct r0; congruence). injection H' as -> ->. eapply data_loop_fails; eauto.
    - unfold full_add_box in H. destruct (fl_state _); try (done H). destruct (_ =? 0); [done H|].
      destruct (box_init _ _ _ _ _ _ _) as [r0 b]. destruct (res_pass r0); done H.
    - unfold full_set_box_callbacks in H. destruct (fl_state _); try (done H). destruct (fl_union _); done H.
    - unfold full_add_box_ergo_tree in H. destruct (fl_state _); try (done H). eapply on_box_fails; eauto.
    - unfold full_add_box_change_tree in H. destruct (fl_state _); try (done H). eapply on_box_fails; eauto.
    - unfold full_add_box_miners_fee_tree in H. destruct (fl_state _); try (done H). eapply on_box_fails; eauto.
    - unfold full_add_box_tokens in H. destruct (fl_state _); try (done H). eapply on_box_fails; eauto.
    - unfold full_add_box_registers in H. destruct (fl_state _); try (done H). destruct (fl_union _) as [|c set|b set]; try (done H).
      destruct (box_add_registers _ _ _) as [r0 x]. destruct r0; try (done H). apply output_finished_ok in H. congruence.
  Qed.
  Lemma full_latch : forall c (s : fs A) r s', run c s = (r, s') -> failed r ->
    forall l, fst (calls run l s') = repeat R_BAD_STATE (length l) /\
      fs_hash (snd (calls run l s')) = fs_hash s' /\ fs_cb (snd (calls run l s')) = fs_cb s'.
  Proof.
    intros c s r s' H Hf l. apply (calls_dead _ (fun s => fl_state (fs_full s) = FL_ERROR) same_fs).
    - split; reflexivity.
    - intros a b d [] []. split; congruence.
    - intros d t Hd. apply full_dead. exact Hd.
    - eapply full_fails; eauto.
  Qed.
  Lemma full_init_latch : forall i d o t (hash : bytes) (a : A) r s', full_init tget tset i d o t hash a = (r, s') -> failed r ->
    forall l, fst (calls run l s') = repeat R_BAD_STATE (length l) /\
      fs_hash (snd (calls run l s')) = fs_hash s' /\ fs_cb (snd (calls run l s')) = fs_cb s'.
  Proof.
    intros i d o t hash a r s' H (H1 & H2 & H3) l. apply (calls_dead _ (fun s => fl_state (fs_full s) = FL_ERROR) same_fs).
    - split; reflexivity.
    - intros x b y [] []. split; congruence.
    - intros x y Hd. apply full_dead. exact Hd.
    - unfold full_init in H. destruct (_ =? 0); [done H|]. destruct (_ =? 0); [done H|]. destruct (table_init _ _) as [r0 t0].
      destruct r0; try (done H). destruct (_ =? 0); done H.
  Qed.
  End Full.
End Latch.
