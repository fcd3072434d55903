(** No command of a signing or attestation session runs into undefined behaviour. *)
From Verif Require Import Lib SafeInt CodecProofs Env SpecTree SpecTx SpecAmounts SpecTrace SpecApdu Bip32 ErgoTree TxTable TxBox TxInput
  TxFull Amounts OutputInfo InputFrame UiFlow P2pkOp App BoxProofs AmountProofs SignInv SignInput SignData SignOutput SignBox SignRest SignShow.

#[local] Arguments N.eqb : simpl never.
#[local] Arguments N.ltb : simpl never.
#[local] Arguments N.leb : simpl never.
#[local] Arguments N.sub : simpl never.
#[local] Arguments blen : simpl never.
#[local] Arguments num : simpl never.
#[local] Arguments slice : simpl never.

(** ** Boxes, for any callbacks *)

Lemma read_bytes_len : forall n l a r, read_bytes n l = Some (a, r) -> (length r + n = length l)%nat.
Proof.
  intros n l a r H. unfold read_bytes in H. destruct (Nat.leb n (length l)) eqn:E; [|discriminate]. apply Nat.leb_le in E.
  injection H as <- <-. rewrite skipn_length. lia.
Qed.
Lemma read_be_len : forall n l a r, read_be n l = Some (a, r) -> (length r + n = length l)%nat.
Proof.
  intros n l a r H. unfold read_be in H. destruct (read_bytes n l) as [[x y]|] eqn:E; [|discriminate].
  injection H as <- <-. apply read_bytes_len in E. exact E.
Qed.

Section Box.
  Context {A : Type}.
  Variable cb : box_callbacks A.
  Variable P : A -> Prop.

  Record cb_safe : Prop := mk_safe {
    cs_type : forall f t v a, on_type cb = Some f -> P a -> fst (f t v a) <> R_UB /\ (res_pass (fst (f t v a)) = true -> P (snd (f t v a)));
    cs_token : forall f t id v a, on_token cb = Some f -> P a -> fst (f t id v a) <> R_UB /\ (res_pass (fst (f t id v a)) = true -> P (snd (f t id v a)));
    cs_fin : forall f t a, on_finished cb = Some f -> P a -> fst (f t a) <> R_UB }.
  Hypothesis S : cb_safe.

  Lemma box_finished_safe : forall s, P (bs_cb s) -> fst (box_finished cb s) <> R_UB.
  Proof.
    intros s H. unfold box_finished. destruct (on_finished cb) as [f|] eqn:E; [|discriminate].
    pose proof (cs_fin S f (bx_type (bs_box s)) (bs_cb s) E H) as K. destruct (f _ _) as [r a]. cbn [fst] in K.
    destruct (res_pass r); [discriminate|exact K].
  Qed.
  Lemma tree_added_safe : forall s, P (bs_cb s) -> fst (ergo_tree_added cb s) <> R_UB.
  Proof.
    intros s H. assert (T : forall s, P (bs_cb s) -> fst (ergo_tree_added_tail cb s) <> R_UB).
    { clear s H. intros s H. unfold ergo_tree_added_tail. destruct (bx_tokens_count _ =? 0); [|discriminate].
      destruct (bx_regs_size _ =? 0); [|discriminate]. apply box_finished_safe. exact H. }
    unfold ergo_tree_added. destruct (on_type cb) as [f|] eqn:E; [|apply T; exact H].
    pose proof (cs_type S f (bx_type (bs_box s)) (bx_value (bs_box s)) (bs_cb s) E H) as [K1 K2].
    destruct (f _ _ _) as [r a]. cbn [fst snd] in K1, K2. destruct (res_pass r); [|exact K1]. apply T. apply K2. reflexivity.
  Qed.
  Lemma add_tree_safe : forall s l, (bx_state (bs_box s) <> BX_FINISHED -> P (bs_cb s)) -> fst (box_add_tree cb s l) <> R_UB.
  Proof.
    intros s l H. unfold box_add_tree. destruct (bx_state (bs_box s)); try discriminate.
    destruct (_ <? _); [discriminate|]. destruct (_ && _); [discriminate|]. cbv zeta.
    destruct (_ =? 0); [|discriminate]. apply tree_added_safe. apply H. discriminate.
  Qed.
  Lemma fee_tree_safe : forall s b, (bx_state (bs_box s) <> BX_FINISHED -> P (bs_cb s)) -> fst (box_add_miners_fee_tree cb s b) <> R_UB.
  Proof.
    intros s l H. unfold box_add_miners_fee_tree. destruct (bx_state (bs_box s)); try discriminate.
    apply tree_added_safe. apply H. discriminate.
  Qed.
  Lemma change_tree_safe : forall s k, (bx_state (bs_box s) <> BX_FINISHED -> P (bs_cb s)) -> fst (box_add_change_tree cb s k) <> R_UB.
  Proof.
    intros s l H. unfold box_add_change_tree. destruct (bx_state (bs_box s)); try discriminate.
    apply tree_added_safe. apply H. discriminate.
  Qed.
  Lemma regs_safe : forall s l, (bx_state (bs_box s) <> BX_FINISHED -> P (bs_cb s)) -> fst (box_add_registers cb s l) <> R_UB.
  Proof.
    intros s l H. unfold box_add_registers. destruct (bx_state (bs_box s)); try discriminate.
    destruct (_ <? _); [discriminate|]. cbv zeta. destruct (_ =? 0); [|discriminate]. apply box_finished_safe. apply H. discriminate.
  Qed.
  Lemma token_value_safe : forall s id l r s' rest, P (bs_cb s) -> box_token_value cb s id l = (r, s', rest) ->
    r <> R_UB /\ (r = R_OK -> P (bs_cb s') /\ (length rest < length l)%nat).
  Proof.
    intros s id l r s' rest H K. unfold box_token_value in K. destruct (read_u64 l) as [[v l']|] eqn:E; [|inv K; split; discriminate].
    assert (Hl : (length l' < length l)%nat) by (unfold read_u64 in E; apply read_be_len in E; lia).
    destruct (on_token cb) as [f|] eqn:Et.
    - cbn [bs_feed bs_box bs_cb] in K. pose proof (cs_token S f (bx_type (bs_box s)) id v (bs_cb s) Et H) as [K1 K2].
      destruct (f _ _ _ _) as [q a]. cbn [fst snd] in K1, K2. destruct (res_pass q) eqn:Eq.
      + inv K. split; [discriminate|]. intros _. split; [apply K2; reflexivity|exact Hl].
      + inv K. split; [exact K1|]. intros ->. discriminate.
    - inv K. split; [discriminate|]. intros _. split; [exact H|exact Hl].
  Qed.
  Lemma one_token_safe : forall t s l r s' rest, P (bs_cb s) -> box_one_token cb t s l = (r, s', rest) ->
    r <> R_UB /\ (r = R_OK -> P (bs_cb s') /\ (length rest < length l)%nat).
  Proof.
    intros t s l r s' rest H K. unfold box_one_token in K. destruct (_ =? 0); [inv K; split; discriminate|].
    destruct t as [[dn ids]|].
    - destruct (read_u32 l) as [[i l']|] eqn:E; [|inv K; split; discriminate].
      assert (Hl : (length l' < length l)%nat) by (unfold read_u32 in E; apply read_be_len in E; lia).
      destruct (dn <=? i); [inv K; split; discriminate|]. apply token_value_safe in K; [|exact H].
      destruct K as [K1 K2]. split; [exact K1|]. intros Er. destruct (K2 Er). split; [assumption|lia].
    - destruct (read_bytes ERGO_ID_LEN l) as [[i l']|] eqn:E; [|inv K; split; discriminate].
      apply read_bytes_len in E. apply token_value_safe in K; [|exact H].
      destruct K as [K1 K2]. split; [exact K1|]. intros Er. destruct (K2 Er). split; [assumption|lia].
  Qed.
  Lemma tokens_loop_safe : forall fuel t s l, P (bs_cb s) -> (length l < fuel)%nat ->
    let x := box_tokens_loop cb fuel t s l in fst x <> R_UB /\ (fst x = R_OK -> P (bs_cb (snd x))).
  Proof.
    induction fuel as [|k IH]; intros t s l H Hl; [lia|]. cbn [box_tokens_loop].
    destruct l as [|b l]; [split; [discriminate|intros _; exact H]|].
    destruct (box_one_token cb t s (b :: l)) as [[r s'] rest] eqn:E.
    destruct (one_token_safe _ _ _ _ _ _ H E) as [K1 K2].
    destruct r; try (split; [discriminate|intro; discriminate]); [|exfalso; apply K1; reflexivity].
    destruct (K2 eq_refl). apply IH; [assumption|lia].
  Qed.
  Lemma add_tokens_safe : forall s l t, (bx_state (bs_box s) <> BX_FINISHED -> P (bs_cb s)) -> fst (box_add_tokens cb s l t) <> R_UB.
  Proof.
    intros s l t H. unfold box_add_tokens. destruct (bx_state (bs_box s)); try discriminate.
    assert (H' : P (bs_cb s)) by (apply H; discriminate).
    pose proof (tokens_loop_safe (Datatypes.S (length l)) t s l H' (Nat.lt_succ_diag_r _)) as [K1 K2].
    destruct (box_tokens_loop cb (Datatypes.S (length l)) t s l) as [r s']. cbn [fst snd] in K1, K2. destruct r; try discriminate; [|contradiction].
    unfold box_tokens_done. destruct (_ =? 0); [|discriminate]. destruct (_ =? 0); [|discriminate].
    apply box_finished_safe. apply K2. reflexivity.
  Qed.
End Box.

(** ** The callbacks of the two commands *)

Lemma attest_cb_safe : cb_safe attest_box_cb (fun _ => True).
Proof.
  constructor; cbn; try discriminate.
  intros f t id v a H _. injection H as <-. split; [|auto]. unfold attest_token_cb.
  destruct (_ <=? _); [discriminate|]. destruct (existsb _ _); discriminate.
Qed.

Definition pc (c : cbctx) : Prop :=
  length (am_tokens (fst c)) = 20%nat /\ (length (am_table (fst c)) <= 20)%nat /\
  exists i, snd c = Some i /\ length (oi_tokens i) = 20%nat /\ forall h, oi_type i <> OT_SCRIPT_DONE h.

Lemma op_cb_safe : forall E, cb_safe (op_box_cb E) pc.
Proof.
  intros E. constructor; cbn.
  - intros f t v a H (H1 & H2 & H3). injection H as <-. unfold p2pk_output_type_cb, amounts_add_output, checked_sub_u64, checked_add_u64.
    destruct t; repeat (match goal with |- context [if ?b then _ else _] => destruct b end; cbn [fst snd]); (split; [discriminate|]); intro; try discriminate;
      split; try assumption; split; assumption.
  - intros f t id v [a o] H (H1 & H2 & i & H3 & H4 & H5). injection H as <-. cbn [fst snd] in *. subst o. unfold p2pk_output_token_cb. cbn [fst snd].
    unfold output_info_add_token, amounts_add_output_token.
    destruct (find_spec (am_table a) id H2) as [(Hi & Hl & _)|[Hi _]].
    + rewrite (proj2 (N.eqb_neq _ _) Hi). rewrite (nth_error_nth' (oi_tokens i) 0) by lia.
      destruct (negb _); [split; [discriminate|intro; discriminate]|].
      rewrite tok_get_nth by lia.
      assert (Hc : forall x y, checked_sub_i64 x y <> ChkUB).
      { intros x y. unfold checked_sub_i64. repeat match goal with |- context [if ?b then _ else _] => destruct b end; discriminate. }
      specialize (Hc (nth (N.to_nat (token_table_find_token_index (am_table a) id)) (am_tokens a) 0%Z) v).
      destruct (checked_sub_i64 _ _); [split; [discriminate|intro; discriminate]| |contradiction].
      cbn [fst snd]. split; [discriminate|]. intros _. split; [cbn; rewrite set_nth_length; exact H1|]. split; [exact H2|].
      eexists. split; [reflexivity|]. cbn. rewrite set_nth_length. split; assumption.
    + rewrite Hi, N.eqb_refl. split; [discriminate|intro; discriminate].
  - intros f t a H (H1 & H2 & i & H3 & H4 & H5). injection H as <-. unfold p2pk_output_finished_cb. rewrite H3.
    unfold output_info_set_box_finished, maybe_finished. destruct (output_info_is_finished _); [|discriminate].
    cbn [oi_set_box_finished oi_type]. destruct (oi_type i) eqn:Et; try discriminate. exfalso. apply (H5 _ eq_refl).
Qed.

(** ** Operation calls *)

Definition nub {A} (x : out A) : Prop := x <> Fail SW_UB.
Lemma nub_bind : forall A B (x : out A) (f : A -> out B), nub x -> (forall a, x = Ok a -> nub (f a)) -> nub (bind x f).
Proof. intros A B [a|s] f H K; cbn; [apply K; reflexivity|]. intro X. apply H. injection X as ->. reflexivity. Qed.
Lemma nub_rd : forall A (x : option A), nub (rd x). Proof. intros A [a|]; discriminate. Qed.
Lemma nub_fin : forall A l (a : A), nub (finished l a). Proof. intros A [|x l] a; discriminate. Qed.
Lemma nub_token : forall b l, nub (rd_token b l). Proof. intros [|] l; [apply nub_rd|discriminate]. Qed.
Lemma nub_path : forall l, nub (stx_read_bip32_path l).
Proof. intros l. unfold stx_read_bip32_path. destruct (read_u8 l) as [[n m]|]; [|discriminate]. destruct (read_bip32_path n m); discriminate. Qed.
Ltac nubs :=
  repeat first [ apply nub_rd | apply nub_fin | apply nub_token | apply nub_path | discriminate
               | apply nub_bind; [|intros ? ?] | match goal with |- context [let '(_, _) := ?a in _] => destruct a end
               | match goal with |- nub (match ?x with _ => _ end) => destruct x end
               | progress cbv beta zeta ].
Lemma nub_tx_call : forall c t call, op_union_of c = OU_TX t -> fst (call (op_fs c t)) <> R_UB -> nub (tx_call c call).
Proof.
  intros c t call Hu H. unfold tx_call. rewrite Hu. destruct (call (op_fs c t)) as [r s]. cbn [fst] in H.
  unfold tx_result. destruct r; try discriminate. contradiction.
Qed.

Lemma phase_inputs : forall E d h, wf E d h -> phase_of d h = FL_INPUTS_STARTED -> exists c b, union_of E d h = FU_INPUT c b.
Proof.
  intros E d h W H. apply inputs_phase in H as [Ht Hi]. unfold union_of.
  destruct (snoc_cases _ (sx_outputs d)) as [-> | (pre & o & Eo)].
  - cbn [last_of rev]. destruct (last_of (sx_inputs d)); [eauto|]. rewrite Ht. eauto.
  - exfalso. destruct (w_out_in _ _ _ W) as [K _]; [rewrite Eo; apply snoc_not_nil|congruence].
Qed.

(** During the inputs the slots are not negative. *)
Definition slots_ok (a : amounts) : Prop :=
  length (am_tokens a) = 20%nat /\ (length (am_table a) <= 20)%nat /\ Forall (fun z => (0 <= z)%Z) (am_tokens a).
Lemma Forall_set_nth : forall A (P : A -> Prop) n x l, Forall P l -> P x -> Forall P (set_nth n x l).
Proof.
  intros A P. induction n as [|n IH]; intros x l H Hx; destruct l as [|y l]; cbn; try constructor; inv H; auto.
Qed.
Lemma add_i64_pos : forall v r, (0 <= v)%Z -> match checked_add_i64 v r with ChkUB => False | ChkOk z => (0 <= z)%Z | ChkFail => True end.
Proof.
  intros v r H. unfold checked_add_i64. rewrite (proj2 (Z.ltb_ge v 0) H).
  destruct ((INT64_MAX <? r) || (INT64_MAX - r <? u64_of_z v)) eqn:E; [exact I|].
  apply orb_false_iff in E as [E1 E2]. apply N.ltb_ge in E1, E2. unfold z_of_u64, u64, INT64_MAX, two63, two64 in *.
  rewrite N.mod_small by lia. case_if; lia.
Qed.
Lemma add_input_token_safe : forall a id v, slots_ok a ->
  fst (amounts_add_input_token a id v) <> R_UB /\
  (fst (amounts_add_input_token a id v) = R_OK -> slots_ok (snd (amounts_add_input_token a id v))).
Proof.
  intros a id v (H1 & H2 & H3).
  assert (G : forall c i, slots_ok c -> (N.to_nat i < 20)%nat ->
    let x := match tok_get (am_tokens c) i with
       | None => (R_UB, c)
       | Some w => match checked_add_i64 w v with
           | ChkOk v' => (R_OK, am_set_tokens c (set_nth (N.to_nat i) v' (am_tokens c)))
           | ChkFail => (R_U64_OVERFLOW, c) | ChkUB => (R_UB, c) end end in
    fst x <> R_UB /\ (fst x = R_OK -> slots_ok (snd x))).
  { clear a id H1 H2 H3. intros c i (H1 & H2 & H3) Hi. rewrite tok_get_nth by lia. cbv zeta.
    assert (Hp : (0 <= nth (N.to_nat i) (am_tokens c) 0)%Z) by (rewrite Forall_forall in H3; apply H3; apply nth_In; lia).
    pose proof (add_i64_pos _ v Hp) as K. destruct (checked_add_i64 _ v); [split; [discriminate|intro; discriminate]| |contradiction].
    split; [discriminate|]. intros _. split; [cbn; rewrite set_nth_length; exact H1|]. split; [exact H2|]. cbn. apply Forall_set_nth; assumption. }
  unfold amounts_add_input_token.
  destruct (find_spec (am_table a) id H2) as [(Hi & Hl & _)|[Hi _]].
  - rewrite (proj2 (N.eqb_neq _ _) Hi). cbv beta iota. rewrite (proj2 (N.eqb_neq _ _) Hi). apply G; [split; [exact H1|split; assumption]|lia].
  - rewrite Hi, N.eqb_refl. unfold token_table_add_token. destruct (TOKEN_MAX_COUNT <=? blen (am_table a)) eqn:Em.
    + cbv beta iota. rewrite N.eqb_refl. cbv beta iota. rewrite N.eqb_refl. split; [discriminate|intro; discriminate].
    + unfold TOKEN_MAX_COUNT in Em. apply N.leb_gt in Em. cbv beta iota.
      assert (Hb : blen (am_table a) <> INDEX_NOT_EXIST) by (unfold INDEX_NOT_EXIST; lia).
      rewrite (proj2 (N.eqb_neq _ _) Hb). cbv beta iota. rewrite (proj2 (N.eqb_neq _ _) Hb).
      apply G; [|unfold blen in *; lia]. split; [cbn; rewrite set_nth_length; exact H1|].
      split; [cbn; rewrite app_length; unfold blen in Em; cbn; lia|]. cbn. apply Forall_set_nth; [exact H3|lia].
Qed.

Lemma input_loop_safe : forall fuel (s : ins cbctx) l, slots_ok (fst (is_cb s)) -> (length l < fuel)%nat ->
  fst (input_tokens_loop (Some p2pk_input_token_cb) fuel s l) <> R_UB.
Proof.
  induction fuel as [|k IH]; intros s l H Hl; [lia|]. cbn [input_tokens_loop].
  destruct l as [|b l]; [discriminate|].
  destruct (read_bytes ERGO_ID_LEN (b :: l)) as [[id rest]|] eqn:E1; [|discriminate].
  destruct (read_u64 rest) as [[v rest']|] eqn:E2; [|discriminate].
  apply read_bytes_len in E1. unfold read_u64 in E2. apply read_be_len in E2.
  unfold p2pk_input_token_cb. destruct (add_input_token_safe (fst (is_cb s)) id v H) as [K1 K2].
  destruct (amounts_add_input_token (fst (is_cb s)) id v) as [r a]. cbn [fst snd] in *.
  destruct r; try discriminate; [|contradiction]. apply IH; [apply K2; reflexivity|lia].
Qed.
Lemma input_tokens_safe : forall (s : ins cbctx) id i l, slots_ok (fst (is_cb s)) ->
  fst (input_add_tokens (Some p2pk_input_token_cb) s id i l) <> R_UB.
Proof.
  intros s id i l H. unfold input_add_tokens. destruct (in_state (is_in s)); try discriminate.
  destruct (negb _); [discriminate|]. destruct (_ <=? _); [discriminate|]. destruct (negb _); [discriminate|].
  pose proof (input_loop_safe (S (length l)) s l H (Nat.lt_succ_diag_r _)) as K.
  destruct (input_tokens_loop _ _ _ _) as [r s']. cbn [fst] in K. destruct r; try discriminate; [|contradiction].
  unfold input_frame_done. cbv zeta. destruct (_ =? _); [destruct (_ =? 0); discriminate|discriminate].
Qed.
Lemma data_finished_fst : forall tget (s : fs cbctx), fst (data_inputs_finished tget s) = R_OK. Proof. reflexivity. Qed.
Lemma input_finished_safe : forall (s : fs cbctx), fst (input_finished op_tget s) <> R_UB.
Proof.
  intros s. unfold input_finished. cbv zeta. destruct (_ =? 0); [|discriminate]. destruct (_ =? 0); discriminate.
Qed.
Lemma full_input_tokens_safe : forall (s : fs cbctx) c id i l, fl_union (fs_full s) = FU_INPUT c true -> slots_ok (fst (fs_cb s)) ->
  fst (full_add_input_tokens op_tget p2pk_input_token_cb s id i l) <> R_UB.
Proof.
  intros s c id i l Hu H. unfold full_add_input_tokens. destruct (fl_state (fs_full s)); try discriminate.
  unfold on_input. rewrite Hu.
  pose proof (input_tokens_safe (mk_ins c (fs_hash s) (fs_cb s)) id i l H) as K.
  destruct (input_add_tokens _ _ _ _ _) as [r x]. cbn [fst] in K. destruct r; try discriminate; [|contradiction].
  cbn [fs_full full_set_union fl_union]. destruct (in_state (is_in x)); try discriminate. apply input_finished_safe.
Qed.
Lemma data_loop_safe : forall fuel (s : fs cbctx) l, (length l < fuel)%nat -> fst (data_inputs_loop fuel s l) <> R_UB.
Proof.
  induction fuel as [|k IH]; intros s l Hl; [lia|]. cbn [data_inputs_loop]. destruct l as [|b l]; [discriminate|].
  destruct (_ =? 0); [discriminate|]. destruct (read_bytes ERGO_ID_LEN (b :: l)) as [[id rest]|] eqn:E1; [|discriminate].
  apply read_bytes_len in E1. apply IH. unfold ERGO_ID_LEN in E1. lia.
Qed.
Lemma table_loop_safe : forall fuel n l t, (length l < fuel)%nat -> fst (table_add_loop fuel n l t) <> R_UB.
Proof.
  induction fuel as [|k IH]; intros n l t Hl; [lia|]. cbn [table_add_loop]. destruct l as [|b l]; [discriminate|].
  unfold parse_token. destruct (_ <=? _); [discriminate|].
  destruct (read_bytes ERGO_ID_LEN (b :: l)) as [[id rest]|] eqn:E1; [|discriminate].
  apply read_bytes_len in E1. apply IH. unfold ERGO_ID_LEN in E1. lia.
Qed.

(** A box call inside the operation. *)
Lemma output_finished_safe : forall (s : fs cbctx), fst (output_finished s) <> R_UB.
Proof. intros s. unfold output_finished. cbv zeta. destruct (_ =? 0); discriminate. Qed.
Lemma on_box_safe : forall E (s : fs cbctx) b call more, fl_union (fs_full s) = FU_BOX b true ->
  fst (call (op_box_cb E) (mk_bs b (fs_hash s) (fs_cb s))) <> R_UB -> fst (on_box (op_box_cb E) s call more) <> R_UB.
Proof.
  intros E s b call more Hu H. unfold on_box. rewrite Hu. destruct (call _ _) as [r x]. cbn [fst] in H.
  destruct r; try discriminate; try contradiction; destruct (bx_state (bs_box x)), more; try discriminate; apply output_finished_safe.
Qed.

(** The facts used, in a signing session during the outputs. *)
Lemma out_facts : forall E s d h op, wf E d h -> op_tx E s d h op -> op_state_of op = OP_OUTPUTS_STARTED ->
  exists t b i, op_union_of op = OU_TX t /\ fl_union (tx_full t) = FU_BOX b true /\ tx_output t = Some i /\
    (bx_state b <> BX_FINISHED -> pc (op_amounts op, Some i)) /\
    (forall hh, oi_type i = OT_SCRIPT_DONE hh -> oi_tree_set i = true) /\ length (oi_tokens i) = 20%nat.
Proof.
  intros E s d h op W (Hfix & Hst & Hh & Ha & oi & Hinf & Hu) Hs. rewrite Hs in Hst. symmetry in Hst.
  destruct (current_ok E s d h W Hst) as (pre & o & C).
  apply last_info_cur with (pre := pre) (o := o) in Hinf as (x & -> & R); [|apply C].
  exists (mk_tx (full_of E d h) (Some x) (last_approved (sx_outputs d))), (gstate (g_of E o)), x.
  split; [exact Hu|]. split; [cbn; apply (cu_union _ _ _ _ _ _ C)|]. split; [reflexivity|].
  assert (D : forall hh, oi_type x = OT_SCRIPT_DONE hh -> output_complete o = true).
  { intros hh K. rewrite (ri_type _ _ _ _ R) in K. unfold out_type_of in K. destruct (so_dest o) as [[t| |p]|]; try discriminate.
    unfold tree_type, script_type in K. destruct (tree_complete o); [|discriminate].
    destruct (output_complete o); [reflexivity|]. destruct (oi_type _) eqn:Ec; try discriminate.
    exfalso. clear K. unfold classify_first_chunk in Ec.
    repeat match type of Ec with context [if ?b then _ else _] => destruct b end;
    repeat match type of Ec with context [match ?b with Some _ => _ | None => _ end] => destruct b end; discriminate. }
  split; [|split; [|apply (ri_tokens _ _ _ _ R)]].
  - intros Hn. split; [apply (ra_tokens _ _ Ha)|]. split; [apply (ra_tokens _ _ Ha)|]. exists x. split; [reflexivity|].
    split; [apply (ri_tokens _ _ _ _ R)|]. intros hh K. apply Hn. apply D in K. cbn [gstate bx_state]. apply box_finished_state. rewrite g_of_finished. exact K.
  - intros hh K. apply D in K. rewrite (ri_tree_set _ _ _ _ R). unfold output_complete in K. destruct (tree_complete o); [reflexivity|discriminate].
Qed.

(** Nothing but the type and the flags of the info change in a box call. *)
Lemma set_info_safe : forall E o, (forall h, oi_type o <> OT_SCRIPT_DONE h) ->
  fst (maybe_finished_sw (e_blake E) o) <> SW_UB.
Proof.
  intros E o H. unfold maybe_finished_sw, maybe_finished. destruct (output_info_is_finished o); [|discriminate].
  destruct (oi_type o); try discriminate. exfalso. apply (H _ eq_refl).
Qed.
Lemma set_fee_safe : forall E o, fst (output_info_set_fee (e_blake E) o) <> SW_UB.
Proof. intros E o. unfold output_info_set_fee. destruct (oi_type o); try discriminate. apply set_info_safe. discriminate. Qed.
Lemma set_bip32_safe : forall E o p, fst (output_info_set_bip32 (e_blake E) o p) <> SW_UB.
Proof. intros E o p. unfold output_info_set_bip32. destruct (oi_type o); try discriminate. apply set_info_safe. discriminate. Qed.
Lemma add_chunk_safe : forall E o l b, (forall h, oi_type o = OT_SCRIPT_DONE h -> oi_tree_set o = true) ->
  fst (output_info_add_tree_chunk (e_blake E) o l b) <> SW_UB.
Proof.
  intros E o l b H. unfold output_info_add_tree_chunk. cbv zeta.
  destruct (oi_type o) eqn:Et; try discriminate; destruct (oi_tree_set o) eqn:Es; try discriminate.
  - apply set_info_safe. intros h.
    assert (K : forall h, oi_type (classify_first_chunk o l b) <> OT_SCRIPT_DONE h).
    { intros h' Ec. unfold classify_first_chunk in Ec.
      repeat match type of Ec with context [if ?b then _ else _] => destruct b end;
      repeat match type of Ec with context [match ?b with Some _ => _ | None => _ end] => destruct b end; discriminate. }
    destruct (oi_type (classify_first_chunk o l b)) eqn:Ek; try (rewrite Ek; discriminate); [|exfalso; apply (K _ eq_refl)].
    destruct b; discriminate.
  - apply set_info_safe. intros h. rewrite Et. destruct b; discriminate.
  - exfalso. specialize (H _ eq_refl). discriminate.
Qed.
Lemma nub_output_call : forall c t o call, op_union_of c = OU_TX t -> tx_output t = Some o -> fst (call o) <> SW_UB -> nub (output_call c call).
Proof.
  intros c t o call Hu Ho H. unfold output_call. rewrite Hu, Ho. destruct (call o) as [s x]. cbn [fst] in H. destruct s; try discriminate. contradiction.
Qed.
Lemma output_call_union : forall c call c', output_call c call = Ok c' -> exists t, op_union_of c' = OU_TX t.
Proof.
  intros c call c' H. unfold output_call in H. destruct (op_union_of c); try discriminate. destruct (tx_output t); try discriminate.
  destruct (call o) as [[] x]; try discriminate. inv H. eexists. reflexivity.
Qed.
Lemma nub_check : forall c t, op_union_of c = OU_TX t -> nub (check_tx_finished c).
Proof. intros c t H. unfold check_tx_finished. rewrite H. destruct (fl_state _); discriminate. Qed.
Lemma tx_call_union : forall c call c', tx_call c call = Ok c' -> exists t, op_union_of c' = OU_TX t.
Proof.
  intros c call c' H. unfold tx_call in H. destruct (op_union_of c); try discriminate. destruct (call _) as [r x].
  destruct (tx_result r); [discriminate|]. inv H. eexists. reflexivity.
Qed.

(** What the box calls leave of the output info. *)
Definition info_ok (c : cbctx) : Prop := exists i, snd c = Some i /\ forall h, oi_type i = OT_SCRIPT_DONE h -> oi_tree_set i = true.

Section Keep.
  Context {A : Type}.
  Variable cb : box_callbacks A.
  Variable Q : A -> Prop.
  Hypothesis Kt : forall f t v a, on_type cb = Some f -> Q a -> Q (snd (f t v a)).
  Hypothesis Kf : forall f t a, on_finished cb = Some f -> Q a -> Q (snd (f t a)).
  Lemma finished_keep : forall s, Q (bs_cb s) -> Q (bs_cb (snd (box_finished cb s))).
  Proof.
    intros s H. unfold box_finished. destruct (on_finished cb) as [f|] eqn:E; [|exact H].
    pose proof (Kf f (bx_type (bs_box s)) (bs_cb s) eq_refl H) as K. destruct (f _ _) as [r a]. destruct (res_pass r); exact K.
  Qed.
  Lemma tree_added_keep : forall s, Q (bs_cb s) -> Q (bs_cb (snd (ergo_tree_added cb s))).
  Proof.
    intros s H. assert (T : forall s, Q (bs_cb s) -> Q (bs_cb (snd (ergo_tree_added_tail cb s)))).
    { clear s H. intros s H. unfold ergo_tree_added_tail. destruct (_ =? 0); [|exact H]. destruct (_ =? 0); [|exact H]. apply finished_keep. exact H. }
    unfold ergo_tree_added. destruct (on_type cb) as [f|] eqn:E; [|apply T; exact H].
    pose proof (Kt f (bx_type (bs_box s)) (bx_value (bs_box s)) (bs_cb s) eq_refl H) as K. destruct (f _ _ _) as [r a]. destruct (res_pass r); [apply T; exact K|exact K].
  Qed.
  Lemma add_tree_keep : forall s l, Q (bs_cb s) -> Q (bs_cb (snd (box_add_tree cb s l))).
  Proof.
    intros s l H. unfold box_add_tree. destruct (bx_state _); try exact H. destruct (_ <? _); [exact H|]. destruct (_ && _); [exact H|].
    cbv zeta. destruct (_ =? 0); [apply tree_added_keep; exact H|exact H].
  Qed.
  Lemma fee_tree_keep : forall s b, Q (bs_cb s) -> Q (bs_cb (snd (box_add_miners_fee_tree cb s b))).
  Proof. intros s l H. unfold box_add_miners_fee_tree. destruct (bx_state _); try exact H. apply tree_added_keep. exact H. Qed.
  Lemma change_tree_keep : forall s k, Q (bs_cb s) -> Q (bs_cb (snd (box_add_change_tree cb s k))).
  Proof. intros s l H. unfold box_add_change_tree. destruct (bx_state _); try exact H. apply tree_added_keep. exact H. Qed.
End Keep.

Lemma info_ok_type : forall E f t v c, on_type (op_box_cb E) = Some f -> info_ok c -> info_ok (snd (f t v c)).
Proof.
  intros E f t v c H K. injection H as <-. unfold p2pk_output_type_cb. destruct (amounts_add_output _ _ _). exact K.
Qed.
Lemma info_ok_fin : forall E f t c, on_finished (op_box_cb E) = Some f -> info_ok c -> info_ok (snd (f t c)).
Proof.
  intros E f t c H (i & K1 & K2). injection H as <-. unfold p2pk_output_finished_cb. rewrite K1.
  unfold output_info_set_box_finished, maybe_finished.
  destruct (output_info_is_finished (oi_set_box_finished i)) eqn:Ef.
  - unfold output_info_is_finished in Ef. apply andb_true_iff in Ef as [Ef _]. cbn in Ef. cbn [oi_set_box_finished oi_type].
    destruct (oi_type i); cbn; eexists; split; try reflexivity; cbn; intros; assumption.
  - cbn. eexists. split; [reflexivity|]. exact K2.
Qed.
Lemma on_box_keep : forall E (s : fs cbctx) b call more, fl_union (fs_full s) = FU_BOX b true ->
  (forall x, info_ok (bs_cb x) -> info_ok (bs_cb (snd (call (op_box_cb E) x)))) -> info_ok (fs_cb s) ->
  info_ok (fs_cb (snd (on_box (op_box_cb E) s call more))).
Proof.
  intros E s b call more Hu K H. unfold on_box. rewrite Hu. specialize (K (mk_bs b (fs_hash s) (fs_cb s)) H). destruct (call _ _) as [r x]. cbn [snd] in K.
  assert (F : forall f h, info_ok (fs_cb (snd (match bx_state (bs_box x) with BX_FINISHED => output_finished (mk_fs f h (bs_cb x)) | _ => (R_OK, mk_fs f h (bs_cb x)) end)))).
  { intros f h. destruct (bx_state (bs_box x)); try exact K. unfold output_finished. cbv zeta. destruct (_ =? 0); exact K. }
  destruct r; try exact K; [apply F|]. destruct more; [exact K|apply F].
Qed.

Lemma full_tree_cases : forall E (s : fs cbctx) l b, fl_union (fs_full s) = FU_BOX b true -> (bx_state b <> BX_FINISHED -> pc (fs_cb s)) -> info_ok (fs_cb s) ->
  fst (full_add_box_ergo_tree (op_box_cb E) s l) <> R_UB /\ info_ok (fs_cb (snd (full_add_box_ergo_tree (op_box_cb E) s l))).
Proof.
  intros E s l b Hu Hp Hi. unfold full_add_box_ergo_tree. destruct (fl_state (fs_full s)); try (split; [discriminate|exact Hi]). split.
  - eapply on_box_safe; [exact Hu|]. eapply add_tree_safe; [apply op_cb_safe|exact Hp].
  - eapply on_box_keep; [exact Hu| |exact Hi]. intros x. apply add_tree_keep; [apply info_ok_type|apply info_ok_fin].
Qed.
Lemma full_fee_cases : forall E (s : fs cbctx) l b, fl_union (fs_full s) = FU_BOX b true -> (bx_state b <> BX_FINISHED -> pc (fs_cb s)) -> info_ok (fs_cb s) ->
  fst (full_add_box_miners_fee_tree (op_box_cb E) s l) <> R_UB /\ info_ok (fs_cb (snd (full_add_box_miners_fee_tree (op_box_cb E) s l))).
Proof.
  intros E s l b Hu Hp Hi. unfold full_add_box_miners_fee_tree. destruct (fl_state (fs_full s)); try (split; [discriminate|exact Hi]). split.
  - eapply on_box_safe; [exact Hu|]. eapply fee_tree_safe; [apply op_cb_safe|exact Hp].
  - eapply on_box_keep; [exact Hu| |exact Hi]. intros x. apply fee_tree_keep; [apply info_ok_type|apply info_ok_fin].
Qed.
Lemma full_change_cases : forall E (s : fs cbctx) l b, fl_union (fs_full s) = FU_BOX b true -> (bx_state b <> BX_FINISHED -> pc (fs_cb s)) -> info_ok (fs_cb s) ->
  fst (full_add_box_change_tree (op_box_cb E) s l) <> R_UB /\ info_ok (fs_cb (snd (full_add_box_change_tree (op_box_cb E) s l))).
Proof.
  intros E s l b Hu Hp Hi. unfold full_add_box_change_tree. destruct (fl_state (fs_full s)); try (split; [discriminate|exact Hi]). split.
  - eapply on_box_safe; [exact Hu|]. eapply change_tree_safe; [apply op_cb_safe|exact Hp].
  - eapply on_box_keep; [exact Hu| |exact Hi]. intros x. apply change_tree_keep; [apply info_ok_type|apply info_ok_fin].
Qed.

(** Opening an input or an output. *)
Lemma add_input_after : forall (s : fs cbctx) id n k, (fl_state (fs_full s) = FL_INPUTS_STARTED -> exists c b, fl_union (fs_full s) = FU_INPUT c b) ->
  fst (full_add_input s id n k) <> R_UB /\
  (tx_result (fst (full_add_input s id n k)) = None -> fs_cb (snd (full_add_input s id n k)) = fs_cb s /\
     fl_state (fs_full (snd (full_add_input s id n k))) = FL_INPUTS_STARTED /\
     exists c b, fl_union (fs_full (snd (full_add_input s id n k))) = FU_INPUT c b).
Proof.
  intros s id n k H. unfold full_add_input. destruct (fl_state (fs_full s)) eqn:Es; try (split; [discriminate|intro; discriminate]).
  destruct (H eq_refl) as (c & b & ->). destruct (in_state c); try (split; [discriminate|intro; discriminate]).
  destruct (_ =? 0); [split; [discriminate|intro; discriminate]|].
  unfold input_init. destruct (_ || _); [split; [discriminate|intro; discriminate]|].
  cbn [res_pass fst snd]. split; [discriminate|]. intros _. split; [reflexivity|]. split; [exact Es|]. cbn. eauto.
Qed.
Lemma set_input_after : forall (s : fs cbctx) c b, fl_state (fs_full s) = FL_INPUTS_STARTED -> fl_union (fs_full s) = FU_INPUT c b ->
  exists s', full_set_input_callback s = (R_OK, s') /\ fs_cb s' = fs_cb s /\ fl_union (fs_full s') = FU_INPUT c true.
Proof. intros s c b H1 H2. unfold full_set_input_callback. rewrite H1, H2. eexists. split; [reflexivity|]. split; reflexivity. Qed.
Lemma add_box_after : forall (s : fs cbctx) v t h n r,
  fst (full_add_box s v t h n r) <> R_UB /\
  (tx_result (fst (full_add_box s v t h n r)) = None ->
     fl_state (fs_full (snd (full_add_box s v t h n r))) = FL_OUTPUTS_STARTED /\
     exists c b, fl_union (fs_full (snd (full_add_box s v t h n r))) = FU_BOX c b).
Proof.
  intros s v t h n r. unfold full_add_box. destruct (fl_state (fs_full s)) eqn:Es; try (split; [discriminate|intro; discriminate]).
  destruct (_ =? 0); [split; [discriminate|intro; discriminate]|].
  destruct (box_init _ _ _ _ _ _ _) as [q b] eqn:Eb.
  assert (K : q <> R_UB /\ (tx_result q = None -> res_pass q = true)).
  { unfold box_init in Eb. cbv zeta in Eb. repeat match type of Eb with (if ?x then _ else _) = _ => destruct x end; inv Eb; split; try discriminate; auto. }
  destruct (res_pass q) eqn:Eq.
  - cbn [fst snd]. split; [discriminate|]. intros _. cbn. eauto.
  - unfold full_res_error. cbn [fst snd]. split; [apply K|]. intros X. apply K in X. discriminate.
Qed.

Lemma nub_add_input : forall op t id n k v, op_union_of op = OU_TX t -> slots_ok (op_amounts op) ->
  (fl_state (tx_full t) = FL_INPUTS_STARTED -> exists c b, fl_union (tx_full t) = FU_INPUT c b) ->
  nub (p2pk_add_input op id v n k) /\
  forall op', p2pk_add_input op id v n k = Ok op' -> op_state_of op' = OP_INPUTS_STARTED /\ slots_ok (op_amounts op') /\
    exists t' c, op_union_of op' = OU_TX t' /\ fl_union (tx_full t') = FU_INPUT c true.
Proof.
  intros op t id n k v Hu Hs Hf.
  assert (G : nub (bind (tx_call op (fun s0 : fs cbctx => full_add_input s0 id n k))
             (fun c : p2pk => bind (tx_call c full_set_input_callback)
                (fun c0 : p2pk => let (s0, a0) := amounts_add_input (op_amounts c0) v in
                 match s0 with SW_OK => Ok (mk_p2pk OP_INPUTS_STARTED (op_key c0) (op_path c0) (op_hash c0) (op_network c0) a0 (op_union_of c0))
                 | _ => Fail s0 end))) /\
    forall op', bind (tx_call op (fun s0 : fs cbctx => full_add_input s0 id n k))
             (fun c : p2pk => bind (tx_call c full_set_input_callback)
                (fun c0 : p2pk => let (s0, a0) := amounts_add_input (op_amounts c0) v in
                 match s0 with SW_OK => Ok (mk_p2pk OP_INPUTS_STARTED (op_key c0) (op_path c0) (op_hash c0) (op_network c0) a0 (op_union_of c0))
                 | _ => Fail s0 end)) = Ok op' -> op_state_of op' = OP_INPUTS_STARTED /\ slots_ok (op_amounts op') /\
      exists t' c, op_union_of op' = OU_TX t' /\ fl_union (tx_full t') = FU_INPUT c true).
  { unfold tx_call at 1 3. rewrite Hu. destruct (add_input_after (op_fs op t) id n k Hf) as [A1 A2].
    destruct (full_add_input (op_fs op t) id n k) as [r s]. cbn [fst snd] in A1, A2.
    destruct (tx_result r) as [e|] eqn:Er.
    - cbn [bind]. split; [|intros; discriminate]. intro X. injection X as ->. destruct r; try discriminate. apply A1. reflexivity.
    - destruct (A2 eq_refl) as (B1 & B2 & c & b & B3). cbn [bind].
      unfold tx_call. cbn [op_put op_union_of].
      match goal with |- context [full_set_input_callback ?x] => destruct (set_input_after x c b) as (s' & C1 & C2 & C3); [exact B2|exact B3|rewrite C1] end.
      cbn [tx_result sw_of_res bind]. cbn [op_put op_amounts]. rewrite C2. cbn [op_fs fs_cb fst op_amounts op_put]. rewrite B1. cbn [op_fs fs_cb fst].
      unfold amounts_add_input, checked_add_u64. destruct (_ <? _); (split; [discriminate|]); [intros; discriminate|].
      intros op' X. injection X as <-. cbn [op_state_of op_amounts op_union_of]. split; [reflexivity|]. split; [exact Hs|].
      eexists _, c. split; [reflexivity|]. exact C3. }
  unfold p2pk_add_input. destruct (op_state_of op); try (split; [discriminate|intros; discriminate]); exact G.
Qed.
Lemma nub_add_output : forall op t v s h n r, op_union_of op = OU_TX t -> nub (p2pk_add_output op v s h n r).
Proof.
  intros op t v s h n r Hu. unfold p2pk_add_output.
  destruct (op_state_of op); try discriminate.
  all: unfold tx_call at 1; rewrite Hu; destruct (add_box_after (op_fs op t) v s h n r) as [A1 A2];
    destruct (full_add_box (op_fs op t) v s h n r) as [q x]; cbn [fst snd] in A1, A2;
    (destruct (tx_result q) as [e|] eqn:Er; [cbn [bind]; intro X; injection X as ->; destruct q; try discriminate; apply A1; reflexivity|]);
    destruct (A2 eq_refl) as (B2 & c & b & B3); cbn [bind];
    unfold tx_call; cbn [op_put op_union_of]; unfold full_set_box_callbacks; cbn [op_fs fs_full tx_full]; rewrite B2, B3; cbn; discriminate.
Qed.

(** ** One command *)

Lemma nub_frame : forall E key data, nub (parse_input_frame E key data).
Proof. intros. unfold parse_input_frame. nubs. Qed.

Lemma or_assoc_cases : forall A B C : Prop, A \/ B \/ C -> (A \/ B) \/ C. Proof. tauto. Qed.
Lemma amounts_slots : forall d a, amounts_rel d a -> sx_outputs d = [] -> slots_ok a.
Proof.
  intros d a R Ho. pose proof (ra_tokens _ _ R) as T. split; [apply T|]. split; [apply T|].
  apply Forall_forall. intros z Hz. apply (In_nth _ _ 0%Z) in Hz as (i & Hi & <-). rewrite (ar_len _ _ T) in Hi. rewrite (ar_slot _ _ T) by exact Hi.
  destruct (first _ _); [|lia]. rewrite balance_inputs by exact Ho. lia.
Qed.

Lemma exec_no_ub : forall E s key d op sub data a, streaming E s d op -> sign_exec E key op sub data <> Some (Fail SW_UB, a).
Proof.
  intros E s key d op sub data a S H.
  assert (Hin : In sub [0x10;0x11;0x12;0x13;0x14;0x15;0x16;0x17;0x18;0x19;0x1A;0x20]).
  { unfold sign_exec in H. cbn [In].
    repeat match type of H with match ?n with _ => _ end = _ => destruct n; try discriminate end; tauto. }
  cbn [In] in Hin.
  assert (Tx : op_state_of op <> OP_INITIALIZED -> exists h, wf E d h /\ op_tx E s d h op).
  { intros K. destruct (streaming_tx' _ _ _ _ S K) as (h & W & T & _). eauto. }
  destruct Hin as [<-|Hin].
  { cbv [sign_exec] in H. injection H as H _. revert H. apply nub_bind; [unfold parse_tx_start; nubs|].
    intros [[[i dd] t] o] _. unfold p2pk_start_tx. destruct (op_state_of op); try discriminate.
    assert (K : fst (full_init op_tget op_tset i dd o t (op_hash op) (op_amounts op, None)) <> R_UB).
    { unfold full_init. destruct (_ =? 0); [discriminate|]. destruct (_ =? 0); [discriminate|]. cbv zeta. unfold table_init.
      destruct (negb _ || _); [discriminate|]. destruct (_ =? 0); discriminate. }
    destruct (full_init _ _ _ _ _ _ _ _) as [r x]. cbn [fst] in K. unfold tx_result. destruct r; try discriminate. contradiction. }
  destruct Hin as [<-|Hin].
  { cbv [sign_exec] in H. injection H as H _. revert H. unfold p2pk_add_tokens. destruct (op_state_of op) eqn:Es; try discriminate.
    destruct Tx as (h & W & T); [discriminate|]. pose proof T as (_ & _ & _ & _ & oi & _ & Hu).
    eapply nub_tx_call; [exact Hu|]. unfold full_add_tokens. destruct (fl_state _); try discriminate.
    match goal with |- context [table_add ?n ?l ?t] => pose proof (table_loop_safe (Datatypes.S (length l)) n l t (Nat.lt_succ_diag_r _)) as K; unfold table_add;
      destruct (table_add_loop (Datatypes.S (length l)) n l t) as [r x] end.
    cbn [fst] in K. destruct r; try discriminate; [|contradiction]. destruct (table_is_finished _ _); discriminate. }
  destruct Hin as [<-|Hin].
  { cbv [sign_exec] in H. injection H as H _. revert H. apply nub_bind; [apply nub_frame|]. intros f _.
    destruct (if_index f =? 0) eqn:Ei.
    - assert (Ht : op_state_of op = OP_TX_STARTED \/ op_state_of op = OP_INPUTS_STARTED \/ p2pk_add_input op (if_box_id f) (if_value f) (if_frames_count f) (if_ext_len f) = Fail SW_BAD_STATE)
        by (unfold p2pk_add_input; destruct (op_state_of op); auto).
      destruct (or_assoc_cases _ _ _ Ht) as [Es | ->]; [|cbn; discriminate]. destruct Tx as (h & W & T); [destruct Es as [-> | ->]; discriminate|].
      assert (Ho : sx_outputs d = []) by (eapply outputs_nil; [exact T|tauto]).
      pose proof T as (_ & _ & _ & Ha & oi & _ & Hu). pose proof (amounts_slots _ _ Ha Ho) as Hs.
      destruct (nub_add_input op _ (if_box_id f) (if_frames_count f) (if_ext_len f) (if_value f) Hu Hs) as [N1 N2].
      { cbn. intro Ep. apply phase_inputs; assumption. }
      apply nub_bind; [exact N1|]. intros op' Hop. destruct (N2 op' Hop) as (M1 & M2 & t' & c & M3 & M4).
      unfold p2pk_add_input_tokens. rewrite M1. eapply nub_tx_call; [exact M3|]. eapply full_input_tokens_safe; [exact M4|exact M2].
    - cbn [bind]. unfold p2pk_add_input_tokens. destruct (op_state_of op) eqn:Es; try discriminate. destruct Tx as (h & W & T); [discriminate|].
      pose proof T as (_ & Hst & _ & Ha & oi & _ & Hu).
      assert (Ho : sx_outputs d = []) by (eapply outputs_nil; [exact T|rewrite Es; auto]).
      rewrite Es in Hst. symmetry in Hst. apply op_phase_inputs in Hst as [Hi _].
      destruct (snoc_cases _ (sx_inputs d)) as [?|(pre & i & Eq)]; [contradiction|].
      eapply nub_tx_call; [exact Hu|]. eapply full_input_tokens_safe; [|cbn; apply (amounts_slots _ _ Ha Ho)].
      cbn. unfold union_of. rewrite Ho, Eq, last_of_snoc. reflexivity. }
  destruct Hin as [<-|Hin].
  { cbv [sign_exec] in H. injection H as H _. revert H. unfold p2pk_add_input_context_extension. destruct (op_state_of op) eqn:Es; try discriminate.
    destruct Tx as (h & W & T); [discriminate|]. pose proof T as (_ & _ & _ & _ & oi & _ & Hu).
    eapply nub_tx_call; [exact Hu|]. unfold full_add_input_context_extension. cbn [op_fs fs_full tx_full full_of fl_state].
    destruct (phase_of d h) eqn:Ep; try discriminate. destruct (phase_inputs E d h W Ep) as (c & b & Eu).
    unfold on_input. cbn [op_fs fs_full tx_full full_of fl_union]. rewrite Eu. unfold input_add_context_extension. cbn [is_in].
    destruct (in_state c); try discriminate. destruct (_ <? _); [discriminate|]. cbv zeta. destruct (_ =? 0); [|discriminate]. apply input_finished_safe. }
  destruct Hin as [<-|Hin].
  { cbv [sign_exec] in H. injection H as H _. revert H. unfold p2pk_add_data_inputs. destruct (op_state_of op) eqn:Es; try discriminate.
    destruct Tx as (h & W & T); [discriminate|]. pose proof T as (_ & _ & _ & _ & oi & _ & Hu).
    eapply nub_tx_call; [exact Hu|]. unfold full_add_data_inputs. destruct (fl_state _); try discriminate.
    match goal with |- context [data_inputs_loop ?k ?x data] => pose proof (data_loop_safe k x data (Nat.lt_succ_diag_r _)) as K; destruct (data_inputs_loop k x data) as [r y] end.
    cbn [fst] in K. destruct r; try discriminate; [|contradiction]. destruct (_ =? 0); discriminate. }
  destruct Hin as [<-|Hin].
  { cbv [sign_exec] in H. injection H as H _. revert H. apply nub_bind; [unfold parse_output_init; nubs|]. intros [[[[v t] hh] n] r] _.
    destruct (op_state_of op) eqn:Es; try (unfold p2pk_add_output; rewrite Es; discriminate).
    all: destruct Tx as (h & W & T); [discriminate|]; pose proof T as (_ & _ & _ & _ & oi & _ & Hu); eapply nub_add_output; exact Hu. }
  assert (Of : op_state_of op = OP_OUTPUTS_STARTED -> exists t b i, op_union_of op = OU_TX t /\ fl_union (tx_full t) = FU_BOX b true /\ tx_output t = Some i /\
    (bx_state b <> BX_FINISHED -> pc (op_amounts op, Some i)) /\ info_ok (op_amounts op, Some i)).
  { intros Hs. destruct Tx as (h & W & T); [rewrite Hs; discriminate|].
    destruct (out_facts E s d h op W T Hs) as (t & b & i & H1 & H2 & H3 & H4 & H5 & H6). exists t, b, i. do 4 (split; [assumption|]). exists i. split; [reflexivity|exact H5]. }
  destruct Hin as [<-|Hin].
  { cbv [sign_exec] in H. injection H as H _. revert H. unfold p2pk_add_output_tree_chunk. destruct (op_state_of op) eqn:Es; try discriminate.
    destruct (Of eq_refl) as (t & b & i & H1 & H2 & H3 & H4 & H5). rewrite H1.
    assert (K : fst (full_add_box_ergo_tree (op_box_cb E) (op_fs op t) data) <> R_UB /\ info_ok (fs_cb (snd (full_add_box_ergo_tree (op_box_cb E) (op_fs op t) data)))).
    { eapply full_tree_cases; [exact H2| |]; unfold op_fs; cbn [fs_cb]; rewrite H3; assumption. }
    destruct (full_add_box_ergo_tree _ _ _) as [r x]. cbn [fst snd] in K. destruct K as [K1 (j & K2 & K3)].
    assert (G : forall fin, nub (bind (output_call (op_put op t x) (fun o => output_info_add_tree_chunk (e_blake E) o data fin)) check_tx_finished)).
    { intros fin. apply nub_bind.
      - eapply nub_output_call; [reflexivity|cbn; exact K2|]. apply add_chunk_safe. exact K3.
      - intros c Hc. apply output_call_union in Hc as (t' & Hc). eapply nub_check. exact Hc. }
    destruct r; try discriminate; try apply G. contradiction. }
  destruct Hin as [<-|Hin].
  { cbv [sign_exec] in H. injection H as H _. revert H. apply nub_bind; [apply nub_fin|]. intros _ _.
    unfold p2pk_add_output_tree_fee. destruct (op_state_of op) eqn:Es; try discriminate.
    destruct (Of eq_refl) as (t & b & i & H1 & H2 & H3 & H4 & H5).
    assert (K : fst (full_add_box_miners_fee_tree (op_box_cb E) (op_fs op t) (Address.network_id_is_mainnet (op_network op))) <> R_UB /\
                info_ok (fs_cb (snd (full_add_box_miners_fee_tree (op_box_cb E) (op_fs op t) (Address.network_id_is_mainnet (op_network op)))))).
    { eapply full_fee_cases; [exact H2| |]; unfold op_fs; cbn [fs_cb]; rewrite H3; assumption. }
    apply nub_bind; [eapply nub_tx_call; [exact H1|]; apply K|].
    intros c Hc. unfold tx_call in Hc. rewrite H1 in Hc.
    destruct (full_add_box_miners_fee_tree _ _ _) as [r x]. cbn [fst snd] in K. destruct K as [K1 (j & K2 & K3)]. destruct (tx_result r); [discriminate|]. injection Hc as <-.
    apply nub_bind.
    - eapply nub_output_call; [reflexivity|cbn; exact K2|]. apply set_fee_safe.
    - intros c Hc. apply output_call_union in Hc as (t' & Hc). eapply nub_check. exact Hc. }
  destruct Hin as [<-|Hin].
  { cbv [sign_exec] in H. injection H as H _. revert H. apply nub_bind; [apply nub_path|]. intros [p rest] _.
    destruct (negb _); [discriminate|]. destruct (generate_public_key E p) as [[pk ch]|]; [|discriminate].
    unfold p2pk_add_output_tree_change. destruct (op_state_of op) eqn:Es; try discriminate.
    destruct (Of eq_refl) as (t & b & i & H1 & H2 & H3 & H4 & H5).
    assert (K : fst (full_add_box_change_tree (op_box_cb E) (op_fs op t) pk) <> R_UB /\
                info_ok (fs_cb (snd (full_add_box_change_tree (op_box_cb E) (op_fs op t) pk)))).
    { eapply full_change_cases; [exact H2| |]; unfold op_fs; cbn [fs_cb]; rewrite H3; assumption. }
    apply nub_bind; [eapply nub_tx_call; [exact H1|]; apply K|].
    intros c Hc. unfold tx_call in Hc. rewrite H1 in Hc.
    destruct (full_add_box_change_tree _ _ _) as [r x]. cbn [fst snd] in K. destruct K as [K1 (j & K2 & K3)]. destruct (tx_result r); [discriminate|]. injection Hc as <-.
    apply nub_bind.
    - eapply nub_output_call; [reflexivity|cbn; exact K2|]. apply set_bip32_safe.
    - intros c Hc. apply output_call_union in Hc as (t' & Hc). eapply nub_check. exact Hc. }
  destruct Hin as [<-|Hin].
  { cbv [sign_exec] in H. injection H as H _. revert H. unfold p2pk_add_output_tokens. destruct (op_state_of op) eqn:Es; try discriminate.
    destruct (Of eq_refl) as (t & b & i & H1 & H2 & H3 & H4 & H5).
    apply nub_bind; [|intros c Hc; apply tx_call_union in Hc as (t' & Hc); eapply nub_check; exact Hc].
    eapply nub_tx_call; [exact H1|]. unfold full_add_box_tokens. destruct (fl_state _); try discriminate.
    eapply on_box_safe; [exact H2|]. eapply add_tokens_safe; [apply op_cb_safe|]. unfold op_fs. cbn [fs_cb fs_hash fs_full bs_cb bs_box]. rewrite H3. exact H4. }
  destruct Hin as [<-|Hin].
  { cbv [sign_exec] in H. injection H as H _. revert H. unfold p2pk_add_output_registers. destruct (op_state_of op) eqn:Es; try discriminate.
    destruct (Of eq_refl) as (t & b & i & H1 & H2 & H3 & H4 & H5).
    apply nub_bind; [|intros c Hc; apply tx_call_union in Hc as (t' & Hc); eapply nub_check; exact Hc].
    eapply nub_tx_call; [exact H1|]. unfold full_add_box_registers. destruct (fl_state _); try discriminate.
    unfold op_fs. cbn [fs_full fs_hash fs_cb]. rewrite H2.
    match goal with |- context [box_add_registers ?c ?x ?l] => assert (K : fst (box_add_registers c x l) <> R_UB);
      [eapply regs_safe; [apply op_cb_safe|cbn [bs_cb bs_box]; rewrite H3; exact H4]|destruct (box_add_registers c x l) as [r y]] end.
    cbn [fst] in K. destruct r; try discriminate; [apply output_finished_safe|contradiction]. }
  destruct Hin as [<-|[]]. discriminate.
Qed.
