(** The signing invariant across screens: which outputs are shown, approvals, the final
    confirmation. *)
From Verif Require Import Lib Env SpecTree SpecTx SpecAmounts SpecTrace Bip32 ErgoTree TxTable TxBox TxInput
  TxFull Amounts OutputInfo UiFlow P2pkOp App BoxProofs AmountProofs SignInv SignInput SignOutput SignBox SignTree SignRest SignData.

#[local] Arguments N.eqb : simpl never.
#[local] Arguments N.ltb : simpl never.
#[local] Arguments N.leb : simpl never.
#[local] Arguments N.sub : simpl never.
#[local] Arguments blen : simpl never.
#[local] Arguments num : simpl never.
#[local] Arguments slice : simpl never.

(** ** Changing the flags of the last output *)

Definition reflag (sh ap : bool) (o : s_output) : s_output :=
  mk_so (so_value o) (so_tree_len o) (so_height o) (so_ntokens o) (so_regs_len o) (so_dest o) (so_tokens o) (so_regs o) sh ap.
Lemma set_shown_flag : forall o, set_shown o = reflag true (so_approved o) o. Proof. reflexivity. Qed.
Lemma set_approved_flag : forall o, set_approved o = reflag (so_shown o) (so_shown o) o. Proof. reflexivity. Qed.

Definition op_relast (op : p2pk) (l : list N) : p2pk :=
  match op_union_of op with
  | OU_TX t => op_set_union op (OU_TX (mk_tx (tx_full t) (tx_output t) l))
  | _ => op
  end.

Lemma reflag_ok : forall E s d h op pre o sh ap, wf E d h -> op_tx E s d h op -> sx_outputs d = pre ++ [o] ->
  let d' := with_outs d (pre ++ [reflag sh ap o]) in
  wf E d' h /\ op_tx E s d' h (op_relast op (last_approved (sx_outputs d'))).
Proof.
  intros E s d h op pre o sh ap W T Ho d'.
  assert (Hne : sx_outputs d <> []) by (rewrite Ho; apply snoc_not_nil).
  destruct (w_out_in _ _ _ W Hne) as [Hi Hd].
  pose proof (w_out_wf _ _ _ W) as F1. rewrite Ho in F1. apply Forall_snoc in F1 as [F1 F2].
  pose proof (w_once _ _ _ W) as F3. rewrite Ho in F3. apply Forall_snoc in F3 as [F3 F4].
  assert (Hc : forall l, count_complete output_complete (l ++ [reflag sh ap o]) = count_complete output_complete (l ++ [o])).
  { intros l. rewrite !count_app, !count_one. reflexivity. }
  assert (Hdone : done_outputs d' = done_outputs d). { unfold done_outputs, d'. cbn. rewrite Hc, Ho. reflexivity. }
  assert (Hf : full_of E d' h = full_of E d h).
  { unfold full_of. rewrite Hdone. f_equal.
    - unfold phase_of, outputs_in. rewrite Hdone. reflexivity.
    - unfold union_of, d'. cbn. rewrite last_of_snoc, Ho, last_of_snoc. reflexivity. }
  split.
  - apply wf_outs; try assumption.
    + apply Forall_snoc. split; [assumption|]. destruct F2. constructor; assumption.
    + intros p x Hx. apply snoc_inj in Hx as [<- _]. apply (w_out_le _ _ _ W pre o Ho).
    + apply Forall_snoc. split; assumption.
  - destruct T as (Hfix & Hst & Hh & Ha & oi & Hinf & Hu). unfold op_relast. rewrite Hu. cbn [tx_full tx_output].
    split; [exact Hfix|]. split; [|split; [|split]].
    + cbn. rewrite Hst. unfold op_phase, outputs_in. rewrite Hdone. cbn [d' with_outs on_outputs sx_outputs].
      rewrite Ho. destruct (pre ++ [o]) eqn:E1; [destruct pre; discriminate|]. destruct (pre ++ [reflag sh ap o]) eqn:E2; [destruct pre; discriminate|]. reflexivity.
    + cbn [op_hash op_set_union]. rewrite Hh. unfold d'. rewrite tx_bytes_outs by assumption.
      rewrite <- (with_outs_same d) at 1. rewrite tx_bytes_outs, Ho by assumption. rewrite !out_base_snoc. reflexivity.
    + cbn [op_amounts op_set_union]. apply (amounts_same_outs d _ pre o); try assumption; reflexivity.
    + exists oi. cbn [op_union_of op_set_union]. split; [|rewrite Hf; reflexivity].
      apply last_info_cur with (pre := pre) (o := o) in Hinf as (x & -> & R); [|assumption].
      apply last_info_new. destruct R as [R1 R2 R3 R4 R5]. constructor; assumption.
Qed.

(** ** Which outputs are shown *)

Lemma used_zero : forall l t f, (length t <= 20)%nat -> oi_rel l t f ->
  (0 <? blen (filter (fun v => 0 <? v) l)) = negb (forallb (fun id => f id =? 0) t).
Proof.
  intros l t f Ht [H1 H2 H3].
  destruct (forallb (fun id => f id =? 0) t) eqn:E; cbn [negb].
  - assert (F : filter (fun v => 0 <? v) l = []).
    { rewrite forallb_forall in E. assert (G : forall v, In v l -> v = 0).
      { intros v Hv. apply (In_nth _ _ 0) in Hv as (i & Hi & <-). rewrite H2 by lia. destruct (first t i) eqn:Ef; [|reflexivity].
        assert (Hlt : (i < length t)%nat). { unfold first in Ef. apply andb_true_iff in Ef as [Ef _]. apply Nat.ltb_lt in Ef. exact Ef. }
        apply N.eqb_eq. apply E. apply nth_In. exact Hlt. }
      clear H1 H2. induction l as [|v l IH]; [reflexivity|]. cbn [filter]. rewrite (G v) by (left; reflexivity). cbn. apply IH. intros. apply G. right. assumption. }
    rewrite F. reflexivity.
  - assert (X : exists id, In id t /\ f id <> 0).
    { clear H1 H2 H3 Ht. induction t as [|x t IH]; [discriminate|]. cbn in E. destruct (f x =? 0) eqn:Ex.
      - destruct (IH E) as (id & A & B). exists id. split; [right; exact A|exact B].
      - exists x. split; [left; reflexivity|]. apply N.eqb_neq. exact Ex. }
    destruct X as (id & Hid & Hf).
    destruct (find_spec t id Ht) as [(_ & Hl & Hn & Hfi & _)|[_ Hn]]; [|contradiction].
    set (i := N.to_nat (token_table_find_token_index t id)) in *.
    assert (Hin : In (f id) (filter (fun v => 0 <? v) l)).
    { apply filter_In. split; [|apply N.ltb_lt; lia]. rewrite <- Hn. specialize (H2 i). rewrite Hfi in H2. rewrite <- H2 by lia. apply nth_In. lia. }
    destruct (filter (fun v => 0 <? v) l); [destruct Hin|]. apply N.ltb_lt. unfold blen. cbn [length]. lia.
Qed.

Lemma table_len : forall d a, amounts_rel d a -> (length (table_of d) <= 20)%nat.
Proof. intros d a [_ _ _ H4 H5]. rewrite <- H4. apply (ar_table _ _ H5). Qed.

Lemma tree_type_cases : forall E o t,
  match tree_type E o t with OT_SCRIPT _ | OT_SCRIPT_DONE _ | OT_SCRIPT_HASH _ | OT_ADDRESS _ => True | _ => False end.
Proof.
  intros E o t. unfold tree_type, script_type, classify_first_chunk.
  destruct (tree_complete o); [|exact I].
  destruct (Nat.eqb (length t) ERGO_TREE_P2PK_LEN && true); [destruct (ergo_tree_parse_p2pk t); [exact I|]|];
  (destruct (Nat.eqb (length t) ERGO_TREE_P2SH_LEN && true); [destruct (ergo_tree_parse_p2sh t); [exact I|]|]);
  cbn; destruct (output_complete o); exact I.
Qed.

Lemma should_show_ok : forall E s d h op pre o, wf E d h -> op_tx E s d h op -> sx_outputs d = pre ++ [o] ->
  so_shown o = false ->
  p2pk_should_show_output op = Some (output_complete o && negb (silent d (ss_path s) (last_approved pre) o)).
Proof.
  intros E s d h op pre o W (Hfix & Hst & Hh & Ha & oi & Hinf & Hu) Ho Hs.
  apply last_info_cur with (pre := pre) (o := o) in Hinf as (x & -> & R); [|assumption].
  pose proof (table_len _ _ Ha) as Hl.
  unfold p2pk_should_show_output. rewrite Hu. cbn [tx_output tx_last_approved].
  assert (Hp : op_state_of op = OP_OUTPUTS_STARTED \/ op_state_of op = OP_TX_FINISHED).
  { rewrite Hst. unfold op_phase. rewrite Ho. destruct (pre ++ [o]) eqn:E1; [destruct pre; discriminate|]. destruct (outputs_in d h); auto. }
  match goal with |- match op_state_of op with OP_INITIALIZED => _ | OP_TX_STARTED => _ | OP_INPUTS_STARTED => _ | OP_OUTPUTS_STARTED => ?g | _ => _ end = ?r =>
    assert (G : g = r); [|destruct Hp as [-> | ->]; exact G] end.
  assert (Hfin : output_info_is_finished x = output_complete o).
  { unfold output_info_is_finished. rewrite (ri_tree_set _ _ _ _ R), (ri_finished _ _ _ _ R). unfold output_complete. destruct (tree_complete o); reflexivity. }
  rewrite Hfin. destruct (output_complete o) eqn:Hc; cbn [negb]; [|reflexivity].
  assert (Htc : tree_complete o = true). { unfold output_complete in Hc. destruct (tree_complete o); [reflexivity|discriminate]. }
  rewrite (ri_type _ _ _ _ R). rewrite Ho, last_approved_hidden by assumption. destruct Hfix as (_ & Hpath & _). rewrite Hpath.
  unfold silent, out_type_of. unfold tree_complete in Htc. destruct (so_dest o) as [[t| |p]|] eqn:Ed; try discriminate.
  - pose proof (tree_type_cases E o t) as K. destruct (tree_type E o t); try contradiction; reflexivity.
  - unfold output_info_used_tokens_count. rewrite (used_zero _ (table_of d) (fun id => amount_of id (tokens_of d o))); [reflexivity|exact Hl|].
    apply (ri_tokens _ _ _ _ R).
  - destruct (ergo_path_validate p V_ADDRESS_E5); cbn [negb andb]; [|reflexivity].
    destruct (bip32_path_is_equal p (last_approved pre)); cbn [negb orb]; [reflexivity|].
    match goal with |- (if ?b then _ else _) = _ => destruct b end; reflexivity.
Qed.

(** ** From fresh to settled, shown or approved *)

Lemma fresh_silent : forall d path pre o, sx_outputs d = pre ++ [o] -> fresh d path (sx_outputs d) ->
  output_complete o && negb (silent d path (last_approved pre) o) = false -> settled d path (sx_outputs d).
Proof.
  intros d path pre o Ho F H. rewrite Ho in *. destruct (F pre o eq_refl) as (S & H1 & H2).
  intros p x post Hx. destruct (snoc_cases _ post) as [->|(q & y & ->)].
  - apply snoc_inj in Hx as [<- <-]. rewrite H, H1, H2. auto.
  - rewrite app_comm_cons, app_assoc in Hx. apply snoc_inj in Hx as [Hx <-]. apply (S p x q Hx).
Qed.
Lemma settled_snoc : forall d path pre o, settled d path pre ->
  so_shown o = output_complete o && negb (silent d path (last_approved pre) o) -> so_approved o = so_shown o ->
  settled d path (pre ++ [o]).
Proof.
  intros d path pre o S H1 H2 p x post Hx. destruct (snoc_cases _ post) as [->|(q & y & ->)].
  - apply snoc_inj in Hx as [<- <-]. auto.
  - rewrite app_comm_cons, app_assoc in Hx. apply snoc_inj in Hx as [Hx <-]. apply (S p x q Hx).
Qed.
Lemma last_approved_shown : forall pre o, so_shown o = true -> so_approved o = false -> last_approved (pre ++ [o]) = [].
Proof. intros pre o H1 H2. unfold last_approved. rewrite fold_left_app. cbn. unfold approved_path at 1. rewrite H1, H2. reflexivity. Qed.

(** An output waits for the user. *)
Definition waiting (d : s_tx) (path : list N) : Prop :=
  exists pre o, sx_outputs d = pre ++ [o] /\ settled d path pre /\ so_shown o = true /\ so_approved o = false /\
    output_complete o = true /\ silent d path (last_approved pre) o = false.

Lemma show_ok : forall E s d h op pre o, wf E d h -> op_tx E s d h op -> sx_outputs d = pre ++ [o] -> fresh d (ss_path s) (sx_outputs d) ->
  output_complete o && negb (silent d (ss_path s) (last_approved pre) o) = true ->
  let d' := on_outputs (upd_last set_shown) d in
  wf E d' h /\ op_tx E s d' h (op_relast op []) /\ waiting d' (ss_path s).
Proof.
  intros E s d h op pre o W T Ho F H d'. rewrite Ho in F. destruct (F pre o eq_refl) as (S & H1 & H2).
  unfold d'. rewrite (upd_outs _ _ _ _ Ho). rewrite set_shown_flag.
  destruct (reflag_ok E s d h op pre o true (so_approved o) W T Ho) as [W' T'].
  assert (L : last_approved (pre ++ [reflag true (so_approved o) o]) = []) by (apply last_approved_shown; [reflexivity|exact H2]).
  split; [exact W'|]. split.
  - cbn [sx_outputs with_outs on_outputs] in T'. rewrite L in T'. exact T'.
  - exists pre, (reflag true (so_approved o) o). apply andb_true_iff in H as [Hc Hs]. apply negb_true_iff in Hs.
    split; [reflexivity|]. split; [apply (settled_same d); [reflexivity|reflexivity|exact S]|].
    split; [reflexivity|]. split; [exact H2|]. split; [exact Hc|]. rewrite (silent_same d) by reflexivity. exact Hs.
Qed.

Lemma approve_output_ok : forall E s d h op, wf E d h -> op_tx E s d h op -> waiting d (ss_path s) ->
  forall t oi, op_union_of op = OU_TX t -> tx_output t = Some oi ->
  let d' := on_outputs (upd_last set_approved) d in
  wf E d' h /\
  op_tx E s d' h (op_set_union op (OU_TX (mk_tx (tx_full t) (Some oi) (match oi_type oi with OT_BIP32 p => p | _ => [] end)))) /\
  settled d' (ss_path s) (sx_outputs d').
Proof.
  intros E s d h op W T (pre & o & Ho & S & H1 & H2 & H3 & H4) t oi Ht Hoi d'.
  unfold d'. rewrite (upd_outs _ _ _ _ Ho), set_approved_flag.
  destruct (reflag_ok E s d h op pre o (so_shown o) (so_shown o) W T Ho) as [W' T'].
  split; [exact W'|]. split.
  - cbn [sx_outputs with_outs on_outputs] in T'. unfold op_relast in T'. rewrite Ht, Hoi in T'.
    assert (L : last_approved (pre ++ [reflag (so_shown o) (so_shown o) o]) = match oi_type oi with OT_BIP32 p => p | _ => [] end).
    { unfold last_approved. rewrite fold_left_app. cbn. unfold approved_path at 1. cbn. rewrite H1.
      destruct T as (_ & _ & _ & _ & x & Hinf & Hu). rewrite Ht in Hu. injection Hu as ->. cbn in Hoi. subst x.
      apply last_info_cur with (pre := pre) (o := o) in Hinf as (x & Hx & R); [|assumption]. injection Hx as <-.
      rewrite (ri_type _ _ _ _ R). unfold out_type_of.
      destruct (so_dest o) as [[tr| |p]|]; try reflexivity.
      pose proof (tree_type_cases E o tr) as K. destruct (tree_type E o tr); try contradiction; reflexivity. }
    rewrite L in T'. exact T'.
  - cbn [sx_outputs with_outs on_outputs]. apply settled_snoc.
    + apply (settled_same d); [reflexivity|reflexivity|exact S].
    + cbn. rewrite H1. change (output_complete (reflag true true o)) with (output_complete o). rewrite H3.
      rewrite (silent_same d) by reflexivity. change (silent d (ss_path s) (last_approved pre) (reflag true true o)) with (silent d (ss_path s) (last_approved pre) o). rewrite H4. reflexivity.
    + reflexivity.
Qed.

(** ** The final confirmation *)

Lemma confirm_ok : forall E s d h op f dy op', op_tx E s d h op -> p2pk_show_confirm_screen op = Ok (f, dy, op') ->
  op_final E s d h op' /\ op_amounts op' = op_amounts op /\ op_path op' = op_path op.
Proof.
  intros E s d h op f dy op' (Hfix & Hst & Hh & Ha & oi & Hinf & Hu) H. unfold p2pk_show_confirm_screen in H.
  destruct (op_state_of op) eqn:Es; try discriminate.
  destruct (add_transaction_screens [] (op_amounts op) 1) as [fd|]; [|discriminate]. cbn [bind] in H.
  destruct (display (fst fd)); [|discriminate]. cbn [bind] in H. inv H.
  split; [|split; reflexivity]. split; [exact Hfix|]. split; [reflexivity|]. split; [exact Hh|]. split; [exact Ha|]. split; [reflexivity|]. auto.
Qed.

(** ** One accepted command *)

Lemma outputs_nil : forall E s d h op, op_tx E s d h op ->
  op_state_of op = OP_TX_STARTED \/ op_state_of op = OP_INPUTS_STARTED -> sx_outputs d = [].
Proof.
  intros E s d h op (_ & Hst & _) H. rewrite Hst in H. unfold op_phase in H. destruct (sx_outputs d); [reflexivity|].
  destruct (outputs_in d h); destruct H; discriminate.
Qed.
Lemma settled_nil : forall d path, sx_outputs d = [] -> settled d path (sx_outputs d).
Proof. intros d path H pre o post K. rewrite H in K. destruct pre; discriminate. Qed.

Definition is_out_cmd (sub : N) : bool := existsb (N.eqb sub) [0x16;0x17;0x18;0x19;0x1A].

(** The session before the first header, or in the middle of the transaction. *)
Definition streaming (E : env) (s : session) (d : s_tx) (op : p2pk) : Prop :=
  (d = s_empty /\ op_new s op) \/ (exists h, wf E d h /\ op_tx E s d h op /\ settled d (ss_path s) (sx_outputs d)).

Lemma streaming_tx : forall E s d op t, streaming E s d op -> op_union_of op = OU_TX t ->
  exists h, wf E d h /\ op_tx E s d h op /\ settled d (ss_path s) (sx_outputs d).
Proof.
  intros E s d op t [(_ & _ & _ & _ & _ & tk & Hu)|H] K; [congruence|exact H].
Qed.
Lemma streaming_tx' : forall E s d op, streaming E s d op -> op_state_of op <> OP_INITIALIZED ->
  exists h, wf E d h /\ op_tx E s d h op /\ settled d (ss_path s) (sx_outputs d).
Proof. intros E s d op [(_ & _ & K & _)|H] Hn; [contradiction|exact H]. Qed.

Lemma exec_ok : forall E s key d op sub data op' a,
  env_ok E -> bytes_ok data = true -> blen data <= 255 -> streaming E s d op ->
  sign_exec E key op sub data = Some (Ok op', a) -> a <> A_CONFIRM ->
  let d' := describe_cmd d sub data in
  (sub = 0x12 -> frame_at E key d' data) /\
  (a = A_OK -> streaming E s d' op') /\
  (a = A_OUTPUT -> exists h, wf E d' h /\ op_tx E s d' h op' /\ fresh d' (ss_path s) (sx_outputs d') /\ sx_outputs d' <> []).
Proof.
  intros E s key d op sub data op' a Henv Hb Hl S H Hn d'.
  assert (Hin : In sub [0x10;0x11;0x12;0x13;0x14;0x15;0x16;0x17;0x18;0x19;0x1A;0x20]).
  { unfold sign_exec in H. cbn [In].
    repeat match type of H with match ?n with _ => _ end = _ => destruct n; try discriminate end; tauto. }
  assert (Hnil : forall l, (op_state_of op = OP_TX_STARTED \/ op_state_of op = OP_INPUTS_STARTED) ->
     forall h, op_tx E s d h op -> sx_outputs d' = sx_outputs d -> settled d' l (sx_outputs d')).
  { intros l Hs h T Eo. apply settled_nil. rewrite Eo. eapply outputs_nil; eauto. }
  cbn [In] in Hin.
  destruct Hin as [<-|Hin].
  { cbv [sign_exec] in H. injection H as H <-. split; [discriminate|]. split; [|discriminate]. intros _.
    destruct S as [[-> N]|(h & W & T & St)].
    - right. destruct (start_ok E s op data op' Hb N H) as (h & W & T). exists h. split; [exact W|]. split; [exact T|]. apply settled_nil. reflexivity.
    - exfalso. apply bind_ok in H as ([[[i dd] t] o] & Hp & H). unfold p2pk_start_tx in H.
      destruct T as (_ & Hst & _). rewrite Hst in H. unfold op_phase in H.
      destruct (sx_outputs d); [destruct (sx_inputs d)|destruct (outputs_in d h)]; discriminate. }
  assert (Hnew : op_state_of op = OP_INITIALIZED -> match sign_exec E key op sub data with Some (Ok _, A_CONFIRM) => False | Some (Ok _, _) => sub = 0x10 | _ => True end).
  { intros Hi. repeat destruct Hin as [<-|Hin]; try (cbv [sign_exec]; unfold p2pk_add_tokens, p2pk_add_input_context_extension, p2pk_add_data_inputs,
      p2pk_add_output_tree_chunk, p2pk_add_output_tokens, p2pk_add_output_registers; rewrite ?Hi; exact I).
    - cbv [sign_exec]. destruct (parse_input_frame E key data) as [f|]; [|exact I]. cbn [bind].
      destruct (if_index f =? 0).
      + unfold p2pk_add_input. rewrite Hi. exact I.
      + cbn [bind]. unfold p2pk_add_input_tokens. rewrite Hi. exact I.
    - cbv [sign_exec]. destruct (parse_output_init data) as [[[[[v t] hh] n] r]|]; [|exact I]. cbn [bind]. unfold p2pk_add_output. rewrite Hi. exact I.
    - cbv [sign_exec]. destruct (finished data tt); [|exact I]. cbn [bind]. unfold p2pk_add_output_tree_fee. rewrite Hi. exact I.
    - cbv [sign_exec]. destruct (stx_read_bip32_path data) as [[p rest]|]; [|exact I]. cbn [bind].
      destruct (negb _); [exact I|]. destruct (generate_public_key E p) as [[pk c]|]; [|exact I]. unfold p2pk_add_output_tree_change. rewrite Hi. exact I.
    - exfalso. cbv [sign_exec] in H. injection H as _ <-. contradiction.
    - destruct Hin. }
  assert (Htx : exists h, wf E d h /\ op_tx E s d h op /\ settled d (ss_path s) (sx_outputs d)).
  { apply streaming_tx' with (op := op); [exact S|]. intros Hi. specialize (Hnew Hi). rewrite H in Hnew. assert (K : sub = 0x10) by (destruct a; assumption || contradiction). subst sub.
    repeat (destruct Hin as [Hin|Hin]; [discriminate|]); destruct Hin. }
  clear Hnew. destruct Htx as (h & W & T & St). clear S.
  pose proof T as (_ & Hst & _).
  destruct Hin as [<-|Hin].
  { cbv [sign_exec] in H. injection H as H <-. split; [discriminate|]. split; [|discriminate]. intros _. right. exists h.
    assert (Hs : op_state_of op = OP_TX_STARTED) by (unfold p2pk_add_tokens in H; destruct (op_state_of op); discriminate || reflexivity).
    destruct (add_tokens_ok E s d h op data op' W T H) as [W' T']. split; [exact W'|]. split; [exact T'|]. apply (Hnil _ (or_introl Hs) h T). reflexivity. }
  destruct Hin as [<-|Hin].
  { cbv [sign_exec] in H. injection H as H <-.
    assert (Hs : op_state_of op = OP_TX_STARTED \/ op_state_of op = OP_INPUTS_STARTED).
    { pose proof H as K. apply bind_ok in K as (f & _ & K). apply bind_ok in K as (o1 & K & K2).
      destruct (if_index f =? 0).
      - unfold p2pk_add_input in K. destruct (op_state_of op); try discriminate; auto.
      - injection K as <-. unfold p2pk_add_input_tokens in K2. destruct (op_state_of op); try discriminate; auto. }
    destruct (add_input_frame_ok E s key d h op data op' Hb Hl W T H) as (W' & T' & Fr). split; [intros _; exact Fr|]. split; [|discriminate]. intros _.
    right. exists h. split; [exact W'|]. split; [exact T'|]. apply (Hnil _ Hs h T). unfold d'. cbn. destruct (num 33 1 data =? 0); reflexivity. }
  destruct Hin as [<-|Hin].
  { cbv [sign_exec] in H. injection H as H <-. split; [discriminate|]. split; [|discriminate]. intros _. right. exists h.
    assert (Hs : op_state_of op = OP_INPUTS_STARTED) by (unfold p2pk_add_input_context_extension in H; destruct (op_state_of op); discriminate || reflexivity).
    destruct (add_ext_ok E s d h op data op' W T H) as [W' T']. split; [exact W'|]. split; [exact T'|]. apply (Hnil _ (or_intror Hs) h T). reflexivity. }
  destruct Hin as [<-|Hin].
  { cbv [sign_exec] in H. injection H as H <-. split; [discriminate|]. split; [|discriminate]. intros _. right. exists h.
    assert (Hs : op_state_of op = OP_INPUTS_STARTED) by (unfold p2pk_add_data_inputs in H; destruct (op_state_of op); discriminate || reflexivity).
    destruct (add_data_ok E s d h op data op' W T H) as [W' T']. split; [exact W'|]. split; [exact T'|]. apply (Hnil _ (or_intror Hs) h T). reflexivity. }
  destruct Hin as [<-|Hin].
  { cbv [sign_exec] in H. injection H as H <-. split; [discriminate|]. split; [|discriminate]. intros _. right. exists h.
    apply (add_output_open_ok E s d h op data op' Hb W T St H). }
  assert (Hout : op_state_of op = OP_OUTPUTS_STARTED -> exists pre o, sx_outputs d = pre ++ [o]).
  { intros Hs. rewrite Hst in Hs. unfold op_phase in Hs. destruct (snoc_cases _ (sx_outputs d)) as [En|(pre & o & En)]; [|eauto].
    rewrite En in Hs. destruct (sx_inputs d); discriminate. }
  assert (Hne : op_state_of op = OP_OUTPUTS_STARTED -> forall f, d' = on_outputs (upd_last f) d -> sx_outputs d' <> []).
  { intros Hs f Ed. destruct (Hout Hs) as (pre & o & Eo). rewrite Ed, (upd_outs _ _ _ _ Eo). apply snoc_not_nil. }
  split; [intros ->; repeat (destruct Hin as [Hin|Hin]; [discriminate|]); destruct Hin|].
  split; [intros ->; exfalso; repeat (destruct Hin as [<-|Hin]; [discriminate H|]); destruct Hin|].
  intros Ea. exists h.
  destruct Hin as [<-|Hin].
  { cbv [sign_exec] in H. injection H as H _.
    assert (Hs : op_state_of op = OP_OUTPUTS_STARTED) by (unfold p2pk_add_output_tree_chunk in H; destruct (op_state_of op); discriminate || reflexivity).
    destruct (add_tree_ok E s d h op data op' Hb W T St H) as (W' & T' & F). do 3 (split; [assumption|]). eapply Hne; [exact Hs|reflexivity]. }
  destruct Hin as [<-|Hin].
  { cbv [sign_exec] in H. injection H as H _. apply bind_ok in H as (u & _ & H).
    assert (Hs : op_state_of op = OP_OUTPUTS_STARTED) by (unfold p2pk_add_output_tree_fee in H; destruct (op_state_of op); discriminate || reflexivity).
    destruct (add_fee_ok E s d h op data op' W T St H) as (W' & T' & F). do 3 (split; [assumption|]). eapply Hne; [exact Hs|reflexivity]. }
  destruct Hin as [<-|Hin].
  { cbv [sign_exec] in H. injection H as H _.
    assert (Hs : op_state_of op = OP_OUTPUTS_STARTED).
    { pose proof H as K. apply bind_ok in K as ([p rest] & _ & K). destruct (negb _); [discriminate|]. destruct (generate_public_key E p) as [[pk c]|]; [|discriminate].
      unfold p2pk_add_output_tree_change in K. destruct (op_state_of op); discriminate || reflexivity. }
    destruct (add_change_ok E s d h op data op' Henv W T St H) as (W' & T' & F). do 3 (split; [assumption|]). eapply Hne; [exact Hs|reflexivity]. }
  destruct Hin as [<-|Hin].
  { cbv [sign_exec] in H. injection H as H _.
    assert (Hs : op_state_of op = OP_OUTPUTS_STARTED) by (unfold p2pk_add_output_tokens in H; destruct (op_state_of op); discriminate || reflexivity).
    destruct (add_out_tokens_ok E s d h op data op' Hb W T St H) as (W' & T' & F). do 3 (split; [assumption|]). eapply Hne; [exact Hs|reflexivity]. }
  destruct Hin as [<-|Hin].
  { cbv [sign_exec] in H. injection H as H _.
    assert (Hs : op_state_of op = OP_OUTPUTS_STARTED) by (unfold p2pk_add_output_registers in H; destruct (op_state_of op); discriminate || reflexivity).
    destruct (add_regs_ok E s d h op data op' W T St H) as (W' & T' & F). do 3 (split; [assumption|]). eapply Hne; [exact Hs|reflexivity]. }
  destruct Hin as [<-|[]]. cbv [sign_exec] in H. injection H as _ <-. contradiction.
Qed.
