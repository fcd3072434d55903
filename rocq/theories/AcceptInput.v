(** Exactly when the commands up to the opening of an output succeed. *)
From Verif Require Import Lib Gve CodecProofs Env SpecVlq SpecTree SpecTrace SpecTx SpecAmounts SpecRules SpecAccept Bip32 ErgoTree
  TxTable TxBox TxInput TxFull Amounts OutputInfo InputFrame P2pkOp App BoxProofs AmountProofs SignInv SignInput SignData SignOutput.

#[local] Arguments N.eqb : simpl never.
#[local] Arguments N.ltb : simpl never.
#[local] Arguments N.leb : simpl never.
#[local] Arguments N.sub : simpl never.
#[local] Arguments blen : simpl never.
#[local] Arguments num : simpl never.
#[local] Arguments slice : simpl never.

(** ** Success *)

Definition okb {A} (x : out A) : Prop := exists a, x = Ok a.
Lemma okb_fail : forall A s, ~ @okb A (Fail s). Proof. intros A s [a H]. discriminate. Qed.
Lemma okb_ok : forall A (a : A), okb (Ok a). Proof. intros. exists a. reflexivity. Qed.
Lemma okb_bind : forall A B (x : out A) (f : A -> out B), okb (bind x f) <-> exists a, x = Ok a /\ okb (f a).
Proof.
  intros A B [a|s] f; split.
  - intro H. exists a. auto.
  - intros (a' & E & H). injection E as ->. exact H.
  - intros [b H]. discriminate.
  - intros (a' & E & _). discriminate.
Qed.
Lemma okb_tx_call : forall c t call, op_union_of c = OU_TX t ->
  (okb (tx_call c call) <-> res_pass (fst (call (op_fs c t))) = true).
Proof.
  intros c t call Hu. unfold tx_call. rewrite Hu. destruct (call (op_fs c t)) as [r s]. cbn [fst].
  destruct r; cbn; split; intro H; try discriminate; try (apply okb_ok); try reflexivity; exfalso; eapply okb_fail; exact H.
Qed.
Lemma okb_rd : forall A (x : option A), okb (rd x) <-> exists a, x = Some a.
Proof.
  intros A [a|]; split; intro H.
  - exists a. reflexivity.
  - apply okb_ok.
  - destruct H as [b H]. discriminate.
  - destruct H as [b H]. discriminate.
Qed.

(** ** Reading *)

Lemma read_be_ex : forall n l, (n <= length l)%nat -> read_be n l = Some (num 0 n l, skipn n l).
Proof.
  intros n l H. apply read_be_spec. exists (firstn n l). rewrite firstn_skipn. split; [reflexivity|].
  split; [apply firstn_length_le; assumption|reflexivity].
Qed.
Lemma read_bytes_ex : forall n l, (n <= length l)%nat -> read_bytes n l = Some (slice 0 n l, skipn n l).
Proof.
  intros n l H. apply read_bytes_spec. unfold slice. cbn [skipn]. rewrite firstn_skipn. split; [reflexivity|].
  apply firstn_length_le; assumption.
Qed.
Lemma skipn_add : forall A a b (l : list A), skipn a (skipn b l) = skipn (b + a) l.
Proof. intros A a b. induction b as [|b IH]; intros [|x l]; cbn [skipn Nat.add]; try reflexivity; [destruct a; reflexivity|apply IH]. Qed.

(** ** Entries *)

Lemma mod_add_len : forall n k : nat, (0 < n)%nat -> ((n + k) mod n = k mod n)%nat.
Proof.
  intros n k H. rewrite Nat.add_mod by lia. rewrite Nat.mod_same by lia. rewrite Nat.add_0_l. apply Nat.mod_mod. lia.
Qed.
Lemma entries_whole : forall n l, (0 < n)%nat -> (Forall (fun e => length e = n) (entries n l) <-> entries_of n l).
Proof.
  intros n l Hn. unfold entries_of. split.
  - intro H. destruct (entries_len n l Hn H) as (k & -> & _). apply Nat.mod_mul. lia.
  - remember (length l) as m eqn:Em. revert l Em. induction m as [m IH] using (well_founded_induction Wf_nat.lt_wf).
    intros l Em H. destruct (le_lt_dec n m) as [L|L].
    + rewrite <- (firstn_skipn n l).
      assert (L1 : length (firstn n l) = n) by (apply firstn_length_le; lia).
      rewrite entries_app by (assumption || lia). constructor; [assumption|].
      apply (IH (m - n)%nat); [lia|rewrite skipn_length; lia|].
      replace m with (n + (m - n))%nat in H by lia. rewrite mod_add_len in H; assumption.
    + rewrite Nat.mod_small in H by assumption. destruct l; [rewrite entries_nil; constructor|]. cbn in Em. lia.
Qed.

(** ** 0x10 *)

Lemma parse_tx_start_iff : forall data, okb (parse_tx_start data) <-> length data = 7%nat.
Proof.
  intro data. split.
  - intros [[[[i d] t] o] H]. apply parse_tx_start_ok in H. tauto.
  - intro L. do 7 (destruct data as [|? data]; [discriminate|]). destruct data; [|discriminate].
    eexists. reflexivity.
Qed.
Lemma start_iff : forall s op data, op_new s op ->
  (okb (bind (parse_tx_start data) (fun '(i, d, t, o) => p2pk_start_tx op i d o t)) <->
   length data = 7%nat /\ 0 < num 0 2 data /\ num 4 1 data <= TOKENS_MAX /\ 0 < num 5 2 data).
Proof.
  intros s op data (Hfix & Hst & Hh & Ha & tok & Hu). rewrite okb_bind.
  assert (P : length data = 7%nat -> parse_tx_start data = Ok (num 0 2 data, num 2 2 data, num 4 1 data, num 5 2 data)).
  { intro L. apply parse_tx_start_iff in L as [[[[i d] t] o] H]. pose proof H as H0. apply parse_tx_start_ok in H as (-> & -> & -> & -> & _). exact H0. }
  assert (Q : okb (p2pk_start_tx op (num 0 2 data) (num 2 2 data) (num 5 2 data) (num 4 1 data)) <->
     0 < num 0 2 data /\ num 4 1 data <= TOKENS_MAX /\ 0 < num 5 2 data).
  { unfold p2pk_start_tx. rewrite Hst. unfold full_init. rewrite Ha.
    destruct (N.eqb_spec (num 0 2 data) 0) as [E0|E0]; [split; [intro K; exfalso; eapply okb_fail; exact K|lia]|].
    destruct (N.eqb_spec (num 5 2 data) 0) as [E1|E1]; [split; [intro K; exfalso; eapply okb_fail; exact K|lia]|].
    unfold table_init. cbn [op_tget amounts_init am_table fst]. rewrite blen_nil.
    change (negb (0 =? 0)) with false. cbn [orb]. unfold TOKEN_MAX_COUNT, TOKENS_MAX.
    destruct (20 <? num 4 1 data) eqn:E2; [split; [intro K; exfalso; eapply okb_fail; exact K|lia]|].
    split; [lia|]. intros _. destruct (num 4 1 data =? 0); cbn; apply okb_ok. }
  split.
  - intros ([[[i d] t] o] & H & K). pose proof H as H0. apply parse_tx_start_ok in H as (-> & -> & -> & -> & L).
    split; [assumption|]. apply Q. exact K.
  - intros (L & K). eexists. split; [apply P; exact L|]. apply Q. exact K.
Qed.

(** ** 0x11 *)

Lemma table_loop_succ : forall fuel distinct data t, (length data < fuel)%nat ->
  Forall (fun e => length e = 32%nat) (entries 32 data) -> blen (t ++ entries 32 data) <= distinct ->
  table_add_loop fuel distinct data t = (R_OK, t ++ entries 32 data).
Proof.
  induction fuel as [|k IH]; intros distinct data t Hf F Hle; [lia|]. cbn [table_add_loop].
  destruct data as [|x data]; [rewrite entries_nil, app_nil_r; reflexivity|]. remember (x :: data) as inp eqn:Ei.
  assert (Li : (0 < length inp)%nat) by (subst; cbn; lia). clear Ei.
  assert (L : (32 <= length inp)%nat).
  { destruct (entries_len 32 inp ltac:(lia) F) as (m & Em & _). destruct m; lia. }
  unfold parse_token. rewrite <- (firstn_skipn 32 inp) in F, Hle.
  assert (L1 : length (firstn 32 inp) = 32%nat) by (apply firstn_length_le; lia).
  rewrite entries_app in F, Hle by (assumption || lia). rewrite blen_app, blen_cons in Hle.
  replace (distinct <=? blen t) with false by (symmetry; apply N.leb_gt; lia).
  rewrite read_bytes_ex by exact L. unfold ERGO_ID_LEN. apply Forall_inv_tail in F.
  rewrite IH.
  - assert (Een : entries 32 inp = firstn 32 inp :: entries 32 (skipn 32 inp)).
    { rewrite <- (entries_app 32 (firstn 32 inp)) by (assumption || lia). rewrite firstn_skipn. reflexivity. }
    rewrite Een, <- app_assoc. reflexivity.
  - rewrite skipn_length. lia.
  - exact F.
  - rewrite !blen_app. change (blen [slice 0 32 inp]) with 1. lia.
Qed.

Lemma table_loop_more : forall f n data t t1, table_add_loop f n data t <> (R_MORE_DATA, t1).
Proof.
  induction f as [|k IH]; intros n data t t1 H; cbn [table_add_loop] in H; [discriminate|].
  destruct data; [discriminate|]. unfold parse_token in H.
  destruct (n <=? blen t); [discriminate|].
  destruct (read_bytes ERGO_ID_LEN (n0 :: data)) as [[id rest]|]; [|discriminate]. eapply IH; eassumption.
Qed.
Lemma table_add_iff : forall n data t, blen t <= n ->
  (res_pass (fst (table_add n data t)) = true <-> entries_of 32 data /\ blen (t ++ entries 32 data) <= n).
Proof.
  intros n data t Hle. unfold table_add. rewrite <- (entries_whole 32 data ltac:(lia)). split.
  - destruct (table_add_loop (S (length data)) n data t) as [r t'] eqn:E. intro H.
    assert (r = R_OK) as ->.
    { destruct r; try discriminate; [reflexivity|]. exfalso. eapply table_loop_more. eassumption. }
    apply table_add_loop_ok in E as (E1 & -> & E3); [|exact Hle]. auto.
  - intros [H1 H2]. rewrite table_loop_succ by (assumption || lia). destruct (table_is_finished n (t ++ entries 32 data)); reflexivity.
Qed.

Lemma no_tokens_no_inputs : forall E d h, wf E d h -> tokens_in d h = false -> sx_inputs d = [] /\ sx_outputs d = [].
Proof.
  intros E d h W H. assert (I : sx_inputs d = []).
  { destruct (sx_inputs d) eqn:X; [reflexivity|]. assert (Y : sx_inputs d <> []) by congruence. apply (w_in_tokens _ _ _ W) in Y. congruence. }
  split; [exact I|]. destruct (sx_outputs d) eqn:X; [reflexivity|]. exfalso. assert (Y : sx_outputs d <> []) by congruence.
  apply (w_out_in _ _ _ W) in Y as [Y _]. unfold inputs_in, done_inputs in Y. rewrite I, count_nil in Y. apply N.eqb_eq in Y.
  pose proof (w_inputs _ _ _ W). lia.
Qed.
Lemma tokens_in_done : forall d h, tokens_in d h = true <-> tokens_done d h.
Proof. intros. unfold tokens_in, tokens_done. apply N.eqb_eq. Qed.
Lemma data_in_done : forall d h, data_in d h = true <-> data_done d h.
Proof. intros. unfold data_in, data_done. apply N.eqb_eq. Qed.
Lemma outputs_in_done : forall d h, outputs_in d h = true <-> outputs_done d h.
Proof. intros. unfold outputs_in, outputs_done, done_outputs. apply N.eqb_eq. Qed.
Lemma count_lt : forall A (f : A -> bool) l, Forall (fun x => f x = true) l \/ count_complete f l < blen l.
Proof.
  intros A f l. induction l as [|x l IH]; [left; constructor|]. change (x :: l) with ([x] ++ l). rewrite count_app, count_one, blen_app.
  change (blen [x]) with 1. destruct (f x) eqn:F.
  - destruct IH as [IH|IH]; [left; constructor; assumption|right; lia].
  - right. pose proof (count_le _ f l). lia.
Qed.
Lemma inputs_in_done : forall E d h, wf E d h -> (inputs_in d h = true <-> inputs_done d h).
Proof.
  intros E d h W. unfold inputs_in, inputs_done, done_inputs. rewrite N.eqb_eq. pose proof (w_in_le _ _ _ W) as L. split.
  - intro H. destruct (count_lt _ input_complete (sx_inputs d)) as [F|F].
    + split; [|exact F]. rewrite (count_all _ _ _ F) in H. exact H.
    + lia.
  - intros [H F]. rewrite (count_all _ _ _ F). exact H.
Qed.
Lemma op_fs_of : forall E s d h op, op_tx E s d h op -> exists t, op_union_of op = OU_TX t /\
  op_fs op t = fs_of E s d h (op_amounts op, tx_output t) /\ last_info E d (tx_output t).
Proof.
  intros E s d h op T. pose proof T as (_ & _ & _ & _ & oi & _ & Hu). eexists. split; [exact Hu|].
  apply (op_tx_fs _ _ _ _ _ _ T Hu).
Qed.

Lemma tokens_iff : forall E s d h op data, wf E d h -> op_tx E s d h op ->
  (okb (p2pk_add_tokens op data) <-> tokens_ok d h data).
Proof.
  intros E s d h op data W T. destruct (op_fs_of _ _ _ _ _ T) as (t & Hu & Hfs & Hli).
  pose proof T as (_ & Hst & _ & Ha & _). unfold p2pk_add_tokens, tokens_ok. rewrite <- tokens_in_done.
  destruct (tokens_in d h) eqn:Et.
  - split; [|intros (K & _); congruence]. intro H. exfalso.
    destruct (op_state_of op); try (eapply okb_fail; exact H).
    rewrite (okb_tx_call _ _ _ Hu), Hfs in H. unfold full_add_tokens in H. cbn [fs_of fs_full full_of fl_state] in H.
    unfold phase_of in H. rewrite Et in H. cbn [negb] in H.
    destruct (inputs_in d h); cbn [negb] in H; [destruct (data_in d h); cbn [negb] in H; [destruct (outputs_in d h)|]|]; cbn in H; discriminate H.
  - destruct (no_tokens_no_inputs _ _ _ W Et) as [Ei Eo].
    assert (Ep : op_phase d h = OP_TX_STARTED) by (unfold op_phase; rewrite Ei, Eo; reflexivity).
    rewrite Hst, Ep, (okb_tx_call _ _ _ Hu), Hfs. unfold full_add_tokens. cbn [fs_of fs_full full_of fl_state fl_distinct fs_cb].
    unfold phase_of. rewrite Et. cbn [negb]. unfold op_tget. cbn [fst].
    assert (Etab : am_table (op_amounts op) = sx_tokens d).
    { rewrite (ra_table _ _ Ha). unfold table_of, input_tokens. rewrite Ei. reflexivity. }
    rewrite Etab. pose proof (table_add_iff (sh_tokens h) data (sx_tokens d) (w_tok_le _ _ _ W)) as Q.
    destruct (table_add (sh_tokens h) data (sx_tokens d)) as [r t'].
    transitivity (entries_of 32 data /\ blen (sx_tokens d ++ entries 32 data) <= sh_tokens h).
    + rewrite <- Q. cbn [fst]. destruct r; cbn; tauto.
    + split; [intros [A B]; split; [discriminate|auto]|tauto].
Qed.

(** ** 0x13 *)

Lemma input_finished_pass : forall s, res_pass (fst (input_finished op_tget s)) = true.
Proof.
  intro s. unfold input_finished. case_if; [|reflexivity].
  match goal with |- context [if ?b then _ else _] => destruct b end; reflexivity.
Qed.
Lemma inputs_all : forall E d h pre i, wf E d h -> inputs_in d h = true -> sx_inputs d = pre ++ [i] -> input_complete i = true.
Proof.
  intros E d h pre i W H Ei. apply (inputs_in_done _ _ _ W) in H as [_ H]. rewrite Ei in H. apply Forall_snoc in H. tauto.
Qed.
Ltac no := split; [let K := fresh in intro K; exfalso|let K := fresh in intro K; exfalso].
Lemma op_phase_none : forall d h, sx_outputs d = [] -> op_phase d h = match sx_inputs d with [] => OP_TX_STARTED | _ => OP_INPUTS_STARTED end.
Proof. intros d h H. unfold op_phase. rewrite H. reflexivity. Qed.
Lemma op_phase_some : forall d h, sx_outputs d <> [] -> op_phase d h = if outputs_in d h then OP_TX_FINISHED else OP_OUTPUTS_STARTED.
Proof. intros d h H. unfold op_phase. destruct (sx_outputs d); [congruence|reflexivity]. Qed.

Lemma extension_iff : forall E s d h op data, wf E d h -> op_tx E s d h op ->
  (okb (p2pk_add_input_context_extension op data) <-> extension_ok d data).
Proof.
  intros E s d h op data W T. destruct (op_fs_of _ _ _ _ _ T) as (t & Hu & Hfs & Hli).
  pose proof T as (_ & Hst & _ & Ha & _). unfold p2pk_add_input_context_extension, extension_ok. rewrite Hst.
  destruct (snoc_cases _ (sx_inputs d)) as [Ei|(pre & i & Ei)].
  { assert (Eo : sx_outputs d = []).
    { destruct (sx_outputs d) eqn:X; [reflexivity|]. exfalso. assert (Y : sx_outputs d <> []) by congruence.
      apply (w_out_in _ _ _ W) in Y as [Y _]. unfold inputs_in, done_inputs in Y. rewrite Ei, count_nil in Y. apply N.eqb_eq in Y.
      pose proof (w_inputs _ _ _ W). lia. }
    rewrite (op_phase_none _ _ Eo), Ei. no.
    - eapply okb_fail; eassumption.
    - destruct H as (i & (pre & K) & _). rewrite Ei in K. destruct pre; discriminate. }
  assert (Hne : sx_inputs d <> []) by (rewrite Ei; apply snoc_not_nil).
  pose proof (w_in_tokens _ _ _ W Hne) as Htok.
  assert (Bad : inputs_in d h = true -> ~ (exists i0, current_input d i0 /\ blen (si_frames i0) = si_count i0 /\
     blen (si_ext i0) < si_ext_len i0 /\ blen (si_ext i0 ++ data) <= si_ext_len i0)).
  { intros X (i0 & (pre0 & K) & K1 & K2 & K3). apply (inputs_all _ _ _ _ _ W X) in K. unfold input_complete in K.
    apply andb_true_iff in K as [_ K]. apply N.eqb_eq in K. lia. }
  destruct (sx_outputs d) as [|o0 os] eqn:Eo.
  2:{ assert (Hneo : sx_outputs d <> []) by congruence.
      rewrite (op_phase_some _ _ Hneo). no.
      - destruct (outputs_in d h); eapply okb_fail; eassumption.
      - eapply Bad; [|eassumption]. apply (w_out_in _ _ _ W). exact Hneo. }
  rewrite (op_phase_none _ _ Eo). replace (match sx_inputs d with [] => OP_TX_STARTED | _ => OP_INPUTS_STARTED end) with OP_INPUTS_STARTED
    by (destruct (sx_inputs d); [congruence|reflexivity]).
  rewrite (okb_tx_call _ _ _ Hu), Hfs. unfold full_add_input_context_extension. cbn [fs_of fs_full full_of fl_state].
  unfold phase_of. rewrite Htok. cbn [negb].
  destruct (inputs_in d h) eqn:Hin; cbn [negb].
  { no; [|eapply Bad; [reflexivity|eassumption]].
    destruct (data_in d h); cbn [negb] in H; [destruct (outputs_in d h); cbn [negb] in H|]; discriminate. }
  unfold on_input. cbn [fs_of fs_full full_of fl_union fs_hash fs_cb]. rewrite (union_inputs E d h pre i Eo Ei).
  pose proof (w_in_wf _ _ _ W) as Fw. rewrite Ei in Fw. apply Forall_snoc in Fw as [_ Iw].
  unfold input_add_context_extension. cbn [is_in in_of in_state in_ext_size].
  assert (Ex : (exists i0, current_input d i0 /\ blen (si_frames i0) = si_count i0 /\
     blen (si_ext i0) < si_ext_len i0 /\ blen (si_ext i0 ++ data) <= si_ext_len i0) <->
     blen (si_frames i) = si_count i /\ blen (si_ext i) < si_ext_len i /\ blen (si_ext i ++ data) <= si_ext_len i).
  { split.
    - intros (i0 & (pre0 & K) & K1). rewrite Ei in K. apply snoc_inj in K as [_ ->]. exact K1.
    - intro K. exists i. split; [exists pre; exact Ei|exact K]. }
  rewrite Ex. clear Ex Bad. rewrite blen_app. unfold frames_in.
  destruct (N.eqb_spec (blen (si_frames i)) (si_count i)) as [E1|E1]; cbn [negb]; [|no; [discriminate|tauto]].
  pose proof (iw_ext _ Iw) as We.
  destruct (N.eqb_spec (blen (si_ext i)) (si_ext_len i)) as [E2|E2]; [no; [discriminate|lia]|].
  destruct (si_ext_len i - blen (si_ext i) <? blen data) eqn:E3; [no; [discriminate|lia]|].
  split; [intros _; split; [exact E1|split; lia]|]. intros _.
  cbv zeta. match goal with |- context [if ?b then _ else _] => destruct b end; [|reflexivity].
  cbn [fst snd]. apply input_finished_pass.
Qed.

(** ** 0x14 *)

Lemma data_loop_succ : forall fuel (s : fs cbctx) data, (length data < fuel)%nat ->
  Forall (fun e => length e = 32%nat) (entries 32 data) -> blen (entries 32 data) <= fl_data_inputs_count (fs_full s) ->
  fst (data_inputs_loop fuel s data) = R_OK.
Proof.
  induction fuel as [|k IH]; intros s data Hf F Hle; [lia|]. cbn [data_inputs_loop].
  destruct data as [|x data]; [reflexivity|]. remember (x :: data) as inp eqn:Ei.
  assert (Li : (0 < length inp)%nat) by (subst; cbn; lia). clear Ei.
  assert (L : (32 <= length inp)%nat).
  { destruct (entries_len 32 inp ltac:(lia) F) as (m & Em & _). destruct m; lia. }
  rewrite <- (firstn_skipn 32 inp) in F, Hle.
  assert (L1 : length (firstn 32 inp) = 32%nat) by (apply firstn_length_le; lia).
  rewrite entries_app in F, Hle by (assumption || lia). rewrite blen_cons in Hle. apply Forall_inv_tail in F.
  destruct (N.eqb_spec (fl_data_inputs_count (fs_full s)) 0) as [E0|E0]; [lia|].
  rewrite read_bytes_ex by exact L. apply IH; [rewrite skipn_length; unfold ERGO_ID_LEN; lia|exact F|].
  cbn [fs_with_full fs_full full_set_data fl_data_inputs_count fs_feed]. unfold ERGO_ID_LEN. lia.
Qed.
Lemma data_finished_pass : forall s : fs cbctx, res_pass (fst (data_inputs_finished op_tget s)) = true.
Proof. reflexivity. Qed.
Lemma data_iff : forall E s d h op data, wf E d h -> op_tx E s d h op ->
  (okb (p2pk_add_data_inputs op data) <-> data_ok d h data).
Proof.
  intros E s d h op data W T. destruct (op_fs_of _ _ _ _ _ T) as (t & Hu & Hfs & Hli).
  pose proof T as (_ & Hst & _ & Ha & _). unfold p2pk_add_data_inputs, data_ok.
  rewrite <- (inputs_in_done _ _ _ W), <- data_in_done, Hst.
  destruct (sx_outputs d) as [|o0 os] eqn:Eo.
  2:{ assert (Hneo : sx_outputs d <> []) by congruence.
      rewrite (op_phase_some _ _ Hneo). no.
      - destruct (outputs_in d h); eapply okb_fail; eassumption.
      - destruct H as (_ & K & _). apply K. apply (w_out_in _ _ _ W). exact Hneo. }
  rewrite (op_phase_none _ _ Eo).
  destruct (sx_inputs d) as [|i0 is] eqn:Ei.
  { no; [eapply okb_fail; eassumption|]. destruct H as (K & _). unfold inputs_in, done_inputs in K. rewrite Ei, count_nil in K.
    apply N.eqb_eq in K. pose proof (w_inputs _ _ _ W). lia. }
  assert (Htok : tokens_in d h = true) by (apply (w_in_tokens _ _ _ W); congruence).
  rewrite (okb_tx_call _ _ _ Hu), Hfs. unfold full_add_data_inputs.
  replace (fl_state (fs_full (fs_of E s d h (op_amounts op, tx_output t)))) with (phase_of d h) by reflexivity.
  unfold phase_of at 1. rewrite Htok. cbn [negb].
  destruct (inputs_in d h); cbn [negb]; [|no; [discriminate|destruct H as [K _]; discriminate]].
  destruct (data_in d h); cbn [negb].
  { no; [destruct (outputs_in d h); cbn [negb] in H; discriminate|]. destruct H as (_ & K & _). apply K. reflexivity. }
  pose proof (w_data_le _ _ _ W) as Wd.
  rewrite <- (entries_whole 32 data ltac:(lia)), blen_app. split.
  - intro H. split; [reflexivity|]. split; [discriminate|].
    destruct (data_inputs_loop (S (length data)) (fs_of E s d h (op_amounts op, tx_output t)) data) as [r1 s2] eqn:El.
    assert (r1 = R_OK) as ->.
    { destruct r1; try discriminate; [reflexivity|]. exfalso. eapply data_inputs_loop_more. eassumption. }
    apply data_inputs_loop_ok in El as (L1 & L2 & _). cbn [fs_of fs_full full_of fl_data_inputs_count] in L2. split; [exact L1|lia].
  - intros (_ & _ & L1 & L2).
    pose proof (data_loop_succ (S (length data)) (fs_of E s d h (op_amounts op, tx_output t)) data ltac:(lia) L1) as Q.
    cbn [fs_of fs_full full_of fl_data_inputs_count] in Q. specialize (Q ltac:(lia)).
    destruct (data_inputs_loop (S (length data)) _ data) as [r1 s2] eqn:El in Q |- *. cbn [fst] in Q. subst r1.
    cbn [res_pass fst snd]. case_if; [apply data_finished_pass|reflexivity].
Qed.

(** ** 0x15 *)

Lemma parse_output_init_ex : forall data, length data = 21%nat ->
  parse_output_init data = Ok (num 0 8 data, num 8 4 data, num 12 4 data, num 16 1 data, num 17 4 data).
Proof.
  intros data L. assert (Q : okb (parse_output_init data)).
  { do 21 (destruct data as [|? data]; [discriminate|]). destruct data; [|discriminate]. eexists. reflexivity. }
  destruct Q as [[[[[v t] hh] n] r] Q]. pose proof Q as P. apply parse_output_init_ok in P as (-> & -> & -> & -> & -> & _). exact Q.
Qed.
Lemma outputs_le : forall E d h, wf E d h -> count_complete output_complete (sx_outputs d) <= sh_outputs h.
Proof.
  intros E d h W. destruct (snoc_cases _ (sx_outputs d)) as [->|(pre & o & Eo)].
  - rewrite count_nil. lia.
  - pose proof (w_out_le _ _ _ W _ _ Eo). rewrite Eo, count_app, count_one. destruct (output_complete o); lia.
Qed.
Lemma output_open_iff : forall E s d h op data, wf E d h -> op_tx E s d h op ->
  (okb (bind (parse_output_init data) (fun '(v, t, hh, n, r) => p2pk_add_output op v t hh n r)) <-> output_ok d h data).
Proof.
  intros E s d h op data W T. destruct (op_fs_of _ _ _ _ _ T) as (t & Hu & Hfs & Hli).
  pose proof T as (_ & Hst & _ & Ha & _). unfold output_ok.
  rewrite <- (inputs_in_done _ _ _ W), <- data_in_done, <- outputs_in_done.
  assert (Q : okb (p2pk_add_output op (num 0 8 data) (num 8 4 data) (num 12 4 data) (num 16 1 data) (num 17 4 data)) <->
    inputs_in d h = true /\ data_in d h = true /\ outputs_in d h <> true /\
    num 8 4 data <= PART_MAX /\ num 16 1 data <= TOKENS_MAX /\ num 17 4 data <= PART_MAX).
  { unfold p2pk_add_output. rewrite Hst.
    set (go := bind (tx_call op (fun s0 => full_add_box s0 _ _ _ _ _)) _).
    assert (G : okb go <-> phase_of d h = FL_OUTPUTS_STARTED /\ num 8 4 data <= PART_MAX /\ num 16 1 data <= TOKENS_MAX /\ num 17 4 data <= PART_MAX).
    { unfold go. clear go. unfold tx_call at 1. rewrite Hu, Hfs. unfold full_add_box. cbn [fs_of fs_full full_of fl_state].
      destruct (phase_of d h) eqn:Ep; try solve [split; [intro K; exfalso; eapply okb_fail; exact K|intros (K & _); discriminate]].
      destruct (outputs_phase _ _ Ep) as (_ & _ & _ & Ho).
      change (fl_outputs_count (full_of E d h)) with (sh_outputs h - done_outputs d).
      destruct (N.eqb_spec (sh_outputs h - done_outputs d) 0) as [E0|E0].
      { exfalso. unfold outputs_in in Ho. apply N.eqb_neq in Ho. pose proof (outputs_le _ _ _ W). unfold done_outputs in *. lia. }
      unfold box_init, TOKEN_MAX_COUNT, MAX_TX_DATA_PART_LEN, PART_MAX, TOKENS_MAX.
      destruct (20 <? num 16 1 data) eqn:E1; [split; [intro K; exfalso; eapply okb_fail; exact K|lia]|].
      destruct (32768 <? num 8 4 data) eqn:E2; [split; [intro K; exfalso; eapply okb_fail; exact K|lia]|].
      destruct (32768 <? num 17 4 data) eqn:E3; [split; [intro K; exfalso; eapply okb_fail; exact K|lia]|].
      split; [intros _; split; [reflexivity|lia]|]. intros _. cbn [res_pass tx_result sw_of_res bind bs_box bs_hash bs_cb]. unfold tx_call. cbn [op_put op_union_of bind].
      unfold op_fs, full_set_box_callbacks. cbn [tx_full fs_full full_set_union fl_state fl_union].
      change (fl_state (full_of E d h)) with (phase_of d h). rewrite Ep. cbn. apply okb_ok. }
    assert (P : phase_of d h = FL_OUTPUTS_STARTED <-> inputs_in d h = true /\ data_in d h = true /\ outputs_in d h <> true).
    { split.
      - intro Ep. destruct (outputs_phase _ _ Ep) as (_ & -> & -> & ->). repeat split. discriminate.
      - intros (P1 & P2 & P3). unfold phase_of. rewrite P1, P2. destruct (outputs_in d h); [congruence|].
        destruct (tokens_in d h) eqn:Et; [reflexivity|]. exfalso. apply (no_tokens_no_inputs _ _ _ W) in Et as [Et _].
        unfold inputs_in, done_inputs in P1. rewrite Et, count_nil in P1. apply N.eqb_eq in P1. pose proof (w_inputs _ _ _ W). lia. }
    destruct (sx_outputs d) as [|o0 os] eqn:Eo.
    - rewrite (op_phase_none _ _ Eo). destruct (sx_inputs d) as [|i0 is] eqn:Ei.
      + split; [intro K; exfalso; eapply okb_fail; exact K|]. intros (K & _). exfalso.
        unfold inputs_in, done_inputs in K. rewrite Ei, count_nil in K. apply N.eqb_eq in K. pose proof (w_inputs _ _ _ W). lia.
      + rewrite G, P. tauto.
    - rewrite op_phase_some by congruence. destruct (outputs_in d h) eqn:Eh.
      + split; [intro K; exfalso; eapply okb_fail; exact K|]. intros (_ & _ & K & _). congruence.
      + rewrite G, P. tauto. }
  rewrite okb_bind. split.
  - intros ([[[[v t1] hh] n] r] & H & K). apply parse_output_init_ok in H as (-> & -> & -> & -> & -> & L). apply Q in K. tauto.
  - intros K. eexists. split; [apply parse_output_init_ex; tauto|]. apply Q. tauto.
Qed.
