(** The serializers do the same to a buffer as to the list of its unread bytes. *)
From Verif Require Import Lib Env Bip32 InputFrame RwBuffer SpecBuffer RwBufferProofs TxTable TxBox TxInput TxFull
  ReadBuf ReadTx ReadProofs.

#[local] Arguments N.eqb : simpl never.
#[local] Arguments N.ltb : simpl never.
#[local] Arguments N.leb : simpl never.
#[local] Arguments N.sub : simpl never.

(** * The token table *)
Lemma parse_token_ok : forall b t n, buffer_valid b ->
  let '(r, b', t') := raw_parse_token b t n in buffer_valid b' /\ parse_token (unread b) t n = (r, unread b', t').
Proof.
  intros b t n V. unfold raw_parse_token, parse_token. destruct (n <=? blen t); [auto|].
  destruct (id_cases b V) as [[H1 H2]|(v & b' & H1 & V' & H2)]; rewrite H1, H2; auto.
Qed.
Lemma table_add_loop_ok : forall k d b t, buffer_valid b -> raw_table_add_loop k d b t = table_add_loop k d (unread b) t.
Proof.
  induction k as [|k IH]; intros d b t V; [reflexivity|]. cbn [raw_table_add_loop table_add_loop].
  rewrite more_unread by assumption. destruct (unread b) as [|x l] eqn:U; [reflexivity|]. rewrite <- U. clear U x l.
  pose proof (parse_token_ok b t d V) as P. destruct (raw_parse_token b t d) as [[r b'] t']. destruct P as [V' P]. rewrite P.
  destruct r; try reflexivity. apply IH. exact V'.
Qed.
Lemma table_add_ok : forall d b t, buffer_valid b -> raw_table_add d b t = table_add d (unread b) t.
Proof.
  intros d b t V. unfold raw_table_add, table_add. rewrite rounds_unread, table_add_loop_ok by assumption. reflexivity.
Qed.

(** * Boxes *)
Section BoxOk.
  Context {A : Type}.
  Variable cb : box_callbacks A.

  Lemma box_add_tree_ok : forall s b, buffer_valid b -> raw_box_add_tree cb s b = box_add_tree cb s (unread b).
  Proof.
    intros s b V. unfold raw_box_add_tree, box_add_tree. rewrite (peek_all b V). destruct (seek_all b V) as [b' ->].
    rewrite data_len_unread by assumption. reflexivity.
  Qed.

  Lemma box_token_value_ok : forall s id b, buffer_valid b ->
    let '(r, s', b') := raw_box_token_value cb s id b in
    buffer_valid b' /\ box_token_value cb s id (unread b) = (r, s', unread b').
  Proof.
    intros s id b V. unfold raw_box_token_value, box_token_value.
    destruct (u64_cases b V) as [[H1 H2]|(v & b' & H1 & V' & H2)]; rewrite H1, H2.
    - destruct (box_res_error s R_BAD_TOKEN_VALUE) as [r s']. auto.
    - cbv zeta. destruct (on_token cb) as [f|]; [|auto]. destruct (f _ _ _ _) as [r a]. destruct (res_pass r); [auto|].
      destruct (box_res_error _ r) as [r' s']. auto.
  Qed.

  Lemma box_one_token_ok : forall table s b, buffer_valid b ->
    let '(r, s', b') := raw_box_one_token cb table s b in
    buffer_valid b' /\ box_one_token cb table s (unread b) = (r, s', unread b').
  Proof.
    intros table s b V. unfold raw_box_one_token, box_one_token. destruct (bx_tokens_count (bs_box s) =? 0).
    { destruct (box_res_error s R_TOO_MANY_TOKENS) as [r s']. auto. }
    destruct table as [[d ids]|].
    - destruct (u32_cases b V) as [[H1 H2]|(v & b' & H1 & V' & H2)]; rewrite H1, H2; [auto|].
      destruct (d <=? v).
      + destruct (box_res_error s R_BAD_TOKEN_INDEX) as [r s']. auto.
      + apply box_token_value_ok. exact V'.
    - destruct (id_cases b V) as [[H1 H2]|(v & b' & H1 & V' & H2)]; rewrite H1, H2.
      + destruct (box_res_error s R_BAD_TOKEN_ID) as [r s']. auto.
      + apply box_token_value_ok. exact V'.
  Qed.

  Lemma box_tokens_loop_ok : forall k table s b, buffer_valid b ->
    raw_box_tokens_loop cb k table s b = box_tokens_loop cb k table s (unread b).
  Proof.
    induction k as [|k IH]; intros table s b V; [reflexivity|]. cbn [raw_box_tokens_loop box_tokens_loop].
    rewrite more_unread by assumption. destruct (unread b) as [|x l] eqn:U; [reflexivity|]. rewrite <- U. clear U x l.
    pose proof (box_one_token_ok table s b V) as P. destruct (raw_box_one_token cb table s b) as [[r s'] b'].
    destruct P as [V' P]. rewrite P. destruct r; try reflexivity. apply IH. exact V'.
  Qed.
  Lemma box_add_tokens_ok : forall s b table, buffer_valid b ->
    raw_box_add_tokens cb s b table = box_add_tokens cb s (unread b) table.
  Proof.
    intros s b table V. unfold raw_box_add_tokens, box_add_tokens. rewrite rounds_unread, box_tokens_loop_ok by assumption. reflexivity.
  Qed.

  Lemma box_add_registers_ok : forall s b, buffer_valid b -> raw_box_add_registers cb s b = box_add_registers cb s (unread b).
  Proof.
    intros s b V. unfold raw_box_add_registers, box_add_registers. rewrite (peek_all b V). destruct (seek_all b V) as [b' ->].
    rewrite data_len_unread by assumption. reflexivity.
  Qed.
End BoxOk.

(** * Inputs *)
Section InputOk.
  Context {A : Type}.
  Variable cb : option (bytes -> token_id -> N -> A -> res * A).

  Lemma input_tokens_loop_ok : forall k s b, buffer_valid b ->
    raw_input_tokens_loop cb k s b = input_tokens_loop cb k s (unread b).
  Proof.
    induction k as [|k IH]; intros s b V; [reflexivity|]. cbn [raw_input_tokens_loop input_tokens_loop].
    rewrite more_unread by assumption. destruct (unread b) as [|x l] eqn:U; [reflexivity|]. rewrite <- U. clear U x l.
    destruct (id_cases b V) as [[H1 H2]|(id & b' & H1 & V' & H2)]; rewrite H1, H2; [reflexivity|].
    destruct (u64_cases b' V') as [[H3 H4]|(v & b2 & H3 & V2 & H4)]; rewrite H3, H4; [reflexivity|].
    destruct cb as [f|]; [|apply IH; exact V2]. destruct (f _ _ _ _) as [r a]. destruct r; try reflexivity. apply IH. exact V2.
  Qed.
  Lemma input_add_tokens_ok : forall s id i b, buffer_valid b ->
    raw_input_add_tokens cb s id i b = input_add_tokens cb s id i (unread b).
  Proof.
    intros s id i b V. unfold raw_input_add_tokens, input_add_tokens. rewrite rounds_unread, input_tokens_loop_ok by assumption. reflexivity.
  Qed.
End InputOk.
Lemma input_add_context_extension_ok : forall A (s : ins A) b, buffer_valid b ->
  raw_input_add_context_extension s b = input_add_context_extension s (unread b).
Proof.
  intros A s b V. unfold raw_input_add_context_extension, input_add_context_extension. rewrite (peek_all b V).
  rewrite data_len_unread by assumption. reflexivity.
Qed.

(** * The whole transaction *)
Section FullOk.
  Context {A : Type}.
  Variable tget : A -> token_table.
  Variable tset : token_table -> A -> A.
  Variable box_cb : box_callbacks A.
  Variable input_cb : bytes -> token_id -> N -> A -> res * A.

  Lemma full_add_tokens_ok : forall s b, buffer_valid b ->
    raw_full_add_tokens tget tset s b = full_add_tokens tget tset s (unread b).
  Proof. intros s b V. unfold raw_full_add_tokens, full_add_tokens. rewrite table_add_ok by assumption. reflexivity. Qed.
  Lemma full_add_input_tokens_ok : forall s id i b, buffer_valid b ->
    raw_full_add_input_tokens tget input_cb s id i b = full_add_input_tokens tget input_cb s id i (unread b).
  Proof.
    intros s id i b V. unfold raw_full_add_input_tokens, full_add_input_tokens, on_input.
    destruct (fl_state _); try reflexivity. destruct (fl_union _); try reflexivity.
    rewrite input_add_tokens_ok by assumption. reflexivity.
  Qed.
  Lemma full_add_input_context_extension_ok : forall s b, buffer_valid b ->
    raw_full_add_input_context_extension tget input_cb s b = full_add_input_context_extension tget input_cb s (unread b).
  Proof.
    intros s b V. unfold raw_full_add_input_context_extension, full_add_input_context_extension, on_input.
    destruct (fl_state _); try reflexivity. destruct (fl_union _); try reflexivity.
    rewrite input_add_context_extension_ok by assumption. reflexivity.
  Qed.
  Lemma data_inputs_loop_ok : forall k (s : fs A) b, buffer_valid b -> raw_data_inputs_loop k s b = data_inputs_loop k s (unread b).
  Proof.
    induction k as [|k IH]; intros s b V; [reflexivity|]. cbn [raw_data_inputs_loop data_inputs_loop].
    rewrite more_unread by assumption. destruct (unread b) as [|x l] eqn:U; [reflexivity|]. rewrite <- U. clear U x l.
    destruct (_ =? 0); [reflexivity|].
    destruct (id_cases b V) as [[H1 H2]|(id & b' & H1 & V' & H2)]; rewrite H1, H2; [reflexivity|]. apply IH. exact V'.
  Qed.
  Lemma full_add_data_inputs_ok : forall s b, buffer_valid b ->
    raw_full_add_data_inputs tget s b = full_add_data_inputs tget s (unread b).
  Proof.
    intros s b V. unfold raw_full_add_data_inputs, full_add_data_inputs.
    rewrite rounds_unread, data_inputs_loop_ok by assumption. reflexivity.
  Qed.
  Lemma full_add_box_ergo_tree_ok : forall s b, buffer_valid b ->
    raw_full_add_box_ergo_tree box_cb s b = full_add_box_ergo_tree box_cb s (unread b).
  Proof.
    intros s b V. unfold raw_full_add_box_ergo_tree, full_add_box_ergo_tree, on_box.
    destruct (fl_state _); try reflexivity. destruct (fl_union _); try reflexivity.
    rewrite box_add_tree_ok by assumption. reflexivity.
  Qed.
  Lemma full_add_box_tokens_ok : forall s b, buffer_valid b ->
    raw_full_add_box_tokens tget box_cb s b = full_add_box_tokens tget box_cb s (unread b).
  Proof.
    intros s b V. unfold raw_full_add_box_tokens, full_add_box_tokens, on_box.
    destruct (fl_state _); try reflexivity. destruct (fl_union _); try reflexivity.
    rewrite box_add_tokens_ok by assumption. reflexivity.
  Qed.
  Lemma full_add_box_registers_ok : forall s b, buffer_valid b ->
    raw_full_add_box_registers box_cb s b = full_add_box_registers box_cb s (unread b).
  Proof.
    intros s b V. unfold raw_full_add_box_registers, full_add_box_registers.
    destruct (fl_state _); try reflexivity. destruct (fl_union _); try reflexivity.
    rewrite box_add_registers_ok by assumption. reflexivity.
  Qed.
End FullOk.
