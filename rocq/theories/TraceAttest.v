(** The attestation session as read off the history. *)
From Verif Require Import Lib Gve SpecVlq CodecProofs Env Bip32 ErgoTree TxTable TxBox InputFrame UiFlow P2pkOp App
  SpecTree SpecTrace SpecTx SpecApdu BoxProofs Moves SignInv SignInput TraceSign.

#[local] Arguments N.eqb : simpl never.
#[local] Arguments N.ltb : simpl never.
#[local] Arguments N.leb : simpl never.
#[local] Arguments N.sub : simpl never.
#[local] Arguments blen : simpl never.
#[local] Arguments num : simpl never.
#[local] Arguments slice : simpl never.

(** ** The serializer and the streamed box *)

Definition sb_done (b : s_box) : bool := match sb_tree b with Some t => blen t =? sb_tree_len b | None => false end.
Definition g_att (b : s_box) : gbox :=
  mk_g (sb_value b) (sb_tree_len b) (sb_height b) (sb_ntokens b) (sb_regs_len b) BT_TREE
       (match sb_tree b with Some t => t | None => [] end) (sb_done b)
       (map (fun t => fst t ++ vlq (snd t)) (sb_tokens b)) (sb_regs b).
Record sb_wf (b : s_box) : Prop := mk_sbwf {
  sw_g : gwf (g_att b);
  sw_id : length (sb_tx_id b) = 32%nat;
  sw_index : sb_index b < two16;
  sw_tokens : Forall tok_ok (sb_tokens b);
  sw_once : NoDup (map fst (sb_tokens b)) }.

Lemma g_att_finished : forall b, g_finished (g_att b) = sb_complete b.
Proof. intros b. unfold g_finished, g_att, sb_complete. cbn. rewrite blen_map. reflexivity. Qed.

Lemma bytes_ok_entry : forall n l e, (0 < n)%nat -> bytes_ok l = true -> In e (entries n l) -> bytes_ok e = true.
Proof.
  intros n l e Hn Hb He. rewrite <- (concat_entries n l Hn) in Hb. revert Hb He. generalize (entries n l) as es.
  induction es as [|y es IH]; intros Hb He; [destruct He|]. cbn in Hb. rewrite bytes_ok_app in Hb. apply andb_true_iff in Hb as [K1 K2].
  destruct He as [->|He]; [exact K1|auto].
Qed.

(** Token callback of attestation. *)
Lemma att_cbs : forall t l a a', token_cbs attest_box_cb t l a a' -> NoDup (map fst a) ->
  a' = a ++ l /\ NoDup (map fst a').
Proof.
  intros t. induction l as [|[id v] l IH]; intros a a' H Nd.
  - cbn in H. subst. rewrite app_nil_r. auto.
  - cbn in H. destruct H as (a1 & (r & Hc & Hr) & H). unfold attest_token_cb in Hc.
    destruct (TOKEN_MAX_COUNT <=? blen a); [injection Hc as <- <-; discriminate|].
    destruct (existsb (fun t0 => bytes_eqb id (fst t0)) a) eqn:Ex; [injection Hc as <- <-; discriminate|].
    injection Hc as <- <-.
    assert (Nd' : NoDup (map fst (a ++ [(id, v)]))).
    { rewrite map_app. cbn [map fst]. apply NoDup_rev in Nd. rewrite <- (rev_involutive (map fst a ++ [id])). apply NoDup_rev.
      rewrite rev_app_distr. cbn [rev app]. constructor; [|exact Nd]. rewrite <- in_rev. intro K. apply in_map_iff in K as ([i w] & Ei & K). cbn in Ei. subst i.
      assert (Z : existsb (fun t0 => bytes_eqb id (fst t0)) a = true); [|congruence].
      apply existsb_exists. exists (id, w). split; [exact K|apply bytes_eqb_refl]. }
    destruct (IH _ _ H Nd') as [-> Q]. rewrite <- app_assoc in *. cbn in *. auto.
Qed.

Lemma app_same : forall A (x : option (list A)) d, match match x with None => Some d | Some t => Some (t ++ d) end with Some t => t | None => [] end =
  (match x with Some t => t | None => [] end) ++ d.
Proof. intros A [x|] d; reflexivity. Qed.

Lemma att_call_ok : forall b sub data call r x, sb_wf b -> bytes_ok data = true -> attest_call sub data = Some call ->
  call (gs (g_att b) [] (sb_tokens b)) = (r, x) -> res_pass r = true ->
  let b' := sb_cmd b sub data in sb_wf b' /\ x = gs (g_att b') [] (sb_tokens b').
Proof.
  intros b sub data call r x [W W1 W2 W3 W4] Hb Hc H Hr b'.
  assert (Hs : sub = 0x02 \/ sub = 0x03 \/ sub = 0x04).
  { unfold attest_call in Hc. repeat match type of Hc with match ?n with _ => _ end = _ => destruct n; try discriminate end; auto. }
  destruct Hs as [-> | [-> | ->]]; injection Hc as <-.
  - destruct (g_tree_ok _ _ _ _ _ _ _ W H Hr) as (D & _ & W' & _ & a1 & T1 & T2 & ->).
    assert (Eb : g_att b' = g_set_tree (g_att b) BT_TREE (g_tree (g_att b) ++ data) (blen (g_tree (g_att b) ++ data) =? g_tree_len (g_att b))).
    { unfold b', sb_cmd, g_att, g_set_tree, sb_done. cbn. destruct (sb_tree b); reflexivity. }
    split.
    + constructor; [rewrite Eb; exact W'|exact W1|exact W2|exact W3|exact W4].
    + rewrite Eb. f_equal. destruct (blen (g_tree (g_att b) ++ data) =? g_tree_len (g_att b)).
      * cbn in T1. subst a1. unfold fin_cb in T2. cbn in T2.
        match type of T2 with (if ?q then _ else _) => destruct q end; rewrite T2; reflexivity.
      * subst a1. unfold fin_cb in T2. cbn in T2. rewrite T2. reflexivity.
  - destruct (g_tokens_ok _ _ _ _ _ _ _ _ W Hb H Hr) as (D & _ & _ & W' & Fe & a1 & T1 & T2 & ->).
    cbn [tok_size] in *. unfold tok_entry, tok_enc in *.
    apply att_cbs in T1 as [-> Nd]; [|exact W4].
    set (es := entries 40 data) in *.
    assert (Eb : g_att b' = g_add_toks (g_att b) (map (fun e => slice 0 32 e ++ vlq (num 32 8 e)) es)).
    { unfold b', sb_cmd, g_att, g_add_toks, sb_done. cbn. rewrite map_app, map_map. reflexivity. }
    split.
    + constructor; [rewrite Eb; exact W'|exact W1|exact W2| |exact Nd].
      cbn. apply Forall_app. split; [exact W3|]. rewrite Forall_map, Forall_forall. rewrite Forall_forall in Fe. intros e He. cbn.
      destruct (Fe e He) as [L _].
      pose proof (bytes_ok_entry 40 data e ltac:(lia) Hb He) as Hok.
      split; [cbn; unfold slice; rewrite firstn_length_le; [reflexivity|rewrite skipn_length; lia]|]. cbn. pose proof (num_bound 32 8 e Hok) as K. exact K.
    + rewrite Eb. f_equal. unfold fin_cb in T2. cbn in T2.
      match type of T2 with (if ?q then _ else _) => destruct q end; rewrite T2; reflexivity.
  - destruct (g_regs_ok _ _ _ _ _ _ _ W H Hr) as (D & _ & _ & _ & W' & T2 & ->).
    assert (Eb : g_att b' = g_add_regs (g_att b) data) by reflexivity.
    split; [constructor; [rewrite Eb; exact W'|exact W1|exact W2|exact W3|exact W4]|].
    rewrite Eb. f_equal. unfold fin_cb in T2. cbn in T2.
    match type of T2 with (if ?q then _ else _) => destruct q end; rewrite T2; reflexivity.
Qed.

Lemma att_id : forall E b r y id, sb_wf b -> sb_complete b = true ->
  box_id_hash (e_blake E) (gs (g_att b) [] (sb_tokens b)) (sb_tx_id b) (sb_index b) = (r, y, id) ->
  id = box_id E b /\ bx_value (bs_box y) = sb_value b.
Proof.
  intros E b r y id [W W1 W2 W3 W4] Hc H. unfold box_id_hash in H.
  pose proof (g_att_finished b) as Hf. rewrite Hc in Hf.
  assert (Hs : bx_state (bs_box (gs (g_att b) [] (sb_tokens b))) = BX_FINISHED).
  { cbn. unfold g_finished in Hf. unfold g_box_state. apply andb_true_iff in Hf as [Hf K3]. apply andb_true_iff in Hf as [K1 K2]. rewrite K1, K2, K3. reflexivity. }
  rewrite Hs in H. injection H as <- <- <-. split; [|reflexivity].
  unfold box_id. f_equal. cbn [bs_hash bs_feed gs app]. rewrite put_vlq16 by assumption.
  unfold g_finished in Hf. apply andb_true_iff in Hf as [Hf K3]. apply andb_true_iff in Hf as [K1 K2].
  unfold gbytes, box_bytes. rewrite K1, K2. cbn [g_att g_value g_tree g_height g_ntok g_toks g_regs g_regs_len] in *.
  rewrite blen_map in K2. apply N.eqb_eq in K2. rewrite K2, <- !app_assoc. reflexivity.
Qed.

(** ** The start command *)

Lemma parse_attest_spec : forall t data a, bytes_ok data = true -> parse_attest_init t data = Ok a ->
  let b := sb_start data in
  ap_tx_id a = sb_tx_id b /\ ap_index a = sb_index b /\ ap_value a = sb_value b /\ ap_tree_size a = sb_tree_len b /\
  ap_height a = sb_height b /\ ap_tokens_count a = sb_ntokens b /\ ap_regs_size a = sb_regs_len b /\
  length (sb_tx_id b) = 32%nat /\ sb_index b < two16 /\ sb_value b < two64 /\ sb_height b < two32 /\
  (55 <= length data)%nat /\ length data = (55 + if t then 4 else 0)%nat /\ ap_token a = (if t then num 55 4 data else 0).
Proof.
  intros t data a Hb H b.
  pose proof (num_bound 32 2 data Hb) as B1. pose proof (num_bound 34 8 data Hb) as B2. pose proof (num_bound 46 4 data Hb) as B3.
  unfold parse_attest_init in H.
  apply bind_ok in H as ([id l1] & H1 & H). unfold rd in H1. destruct (read_bytes ERGO_ID_LEN data) as [[x y]|] eqn:E1; [|discriminate]. injection H1 as -> ->.
  apply read_bytes_spec in E1 as [-> L1].
  apply bind_ok in H as ([v2 l2] & H1 & H). unfold rd in H1. destruct (read_u16 l1) as [[x y]|] eqn:E2; [|discriminate]. injection H1 as -> ->.
  apply read_be_spec in E2 as (b2 & -> & L2 & ->).
  apply bind_ok in H as ([v3 l3] & H1 & H). unfold rd in H1. destruct (read_u64 l2) as [[x y]|] eqn:E3; [|discriminate]. injection H1 as -> ->.
  apply read_be_spec in E3 as (b3 & -> & L3 & ->).
  apply bind_ok in H as ([v4 l4] & H1 & H). unfold rd in H1. destruct (read_u32 l3) as [[x y]|] eqn:E4; [|discriminate]. injection H1 as -> ->.
  apply read_be_spec in E4 as (b4 & -> & L4 & ->).
  apply bind_ok in H as ([v5 l5] & H1 & H). unfold rd in H1. destruct (read_u32 l4) as [[x y]|] eqn:E5; [|discriminate]. injection H1 as -> ->.
  apply read_be_spec in E5 as (b5 & -> & L5 & ->).
  apply bind_ok in H as ([v6 l6] & H1 & H). unfold rd in H1. destruct (read_u8 l5) as [[x y]|] eqn:E6; [|discriminate]. injection H1 as -> ->.
  apply read_be_spec in E6 as (b6 & -> & L6 & ->).
  apply bind_ok in H as ([v7 l7] & H1 & H). unfold rd in H1. destruct (read_u32 l6) as [[x y]|] eqn:E7; [|discriminate]. injection H1 as -> ->.
  apply read_be_spec in E7 as (b7 & -> & L7 & ->).
  apply bind_ok in H as ([v8 l8] & H1 & H). unfold finished in H. destruct l8; [|discriminate]. injection H as <-.
  unfold ERGO_ID_LEN in L1.
  assert (T : length l7 = (if t then 4 else 0)%nat /\ v8 = if t then num 0 4 l7 else 0).
  { unfold rd_token, rd in H1. destruct t.
    - destruct (read_u32 l7) as [[x y]|] eqn:E8; [|discriminate]. injection H1 as -> ->. apply read_be_spec in E8 as (b8 & -> & L8 & ->).
      rewrite app_nil_r, num_all by assumption. split; [exact L8|reflexivity].
    - injection H1 as <- ->. auto. }
  destruct T as [T1 ->].
  unfold b, sb_start. cbn [ap_tx_id ap_index ap_value ap_tree_size ap_height ap_tokens_count ap_regs_size ap_token sb_tx_id sb_index sb_value sb_tree_len sb_height sb_ntokens sb_regs_len].
  assert (N1 : forall off n, (32 <= off)%nat -> num off n (id ++ b2 ++ b3 ++ b4 ++ b5 ++ b6 ++ b7 ++ l7) = num (off - 32) n (b2 ++ b3 ++ b4 ++ b5 ++ b6 ++ b7 ++ l7))
    by (intros off n Ho; rewrite num_skip by lia; rewrite L1; reflexivity).
  rewrite !N1 by lia. cbn [Nat.sub].
  repeat first [rewrite num_head by assumption | rewrite num_skip by lia; rewrite ?L2, ?L3, ?L4, ?L5, ?L6, ?L7; cbn [Nat.sub]].
  rewrite slice_head by assumption.
  rewrite !app_length, L1, L2, L3, L4, L5, L6, L7.
  rewrite !N1 in B1, B2, B3 by lia. cbn [Nat.sub] in B1, B2, B3.
  repeat (first [rewrite num_head in B1 by assumption | rewrite num_skip in B1 by lia; rewrite ?L2, ?L3, ?L4, ?L5, ?L6, ?L7 in B1; cbn [Nat.sub] in B1]).
  repeat (first [rewrite num_head in B2 by assumption | rewrite num_skip in B2 by lia; rewrite ?L2, ?L3, ?L4, ?L5, ?L6, ?L7 in B2; cbn [Nat.sub] in B2]).
  repeat (first [rewrite num_head in B3 by assumption | rewrite num_skip in B3 by lia; rewrite ?L2, ?L3, ?L4, ?L5, ?L6, ?L7 in B3; cbn [Nat.sub] in B3]).
  do 8 (split; [reflexivity|]). do 3 (split; [assumption|]). split; [lia|]. split; [lia|]. destruct t; reflexivity.
Qed.

(** ** The invariant *)

Definition attest_started (start : obs) (sid : N) : Prop :=
  exists p2 data r outs, start = (Apdu CLA INS_ATTEST 1 p2 data r, outs) /\ one_or_two p2 = true /\ event_ok (fst start) /\
    sid <> 0 /\ In sid (r_ids r) /\ (outs = [OResp [sid] SW_OK] \/ exists f, outs = [OShow U_ATTEST f []]).
Definition attest_allowed (start : obs) (sid : N) (body : list obs) : Prop :=
  snd start = [OResp [sid] SW_OK] \/ approved_in INS_ATTEST sid body.
(** The context holds the streamed box. *)
Definition at_rel (c : attest_ctx) (b : s_box) : Prop :=
  sb_wf b /\ at_id c = sb_tx_id b /\ at_index c = sb_index b /\ attest_bs c = gs (g_att b) [] (sb_tokens b).
Definition attest_phase (E : env) (start : obs) (body : list obs) (c : attest_ctx) : Prop :=
  let b := streamed_box start body in
  match at_state c with
  | AT_INITIALIZED => at_rel c b /\ Forall (fun o => continuation INS_ATTEST o = None /\ is_approval o = false) body
  | AT_APPROVED => attest_allowed start (at_session c) body /\ at_rel c b
  | AT_FINISHED => attest_allowed start (at_session c) body /\ sb_wf b /\ sb_complete b = true /\
                   at_id c = box_id E b /\ at_tokens c = sb_tokens b /\ bx_value (at_box c) = sb_value b
  end.
Definition attest_inv (E : env) (key : bytes) (tr : list obs) (st : state) : Prop :=
  st_key st = key /\
  match st_ctx st with
  | X_ATTEST c => exists start body, session_of INS_ATTEST tr = Some (start, body) /\ attest_started start (at_session c) /\
      Forall (keeps INS_ATTEST (at_session c)) body /\ attest_phase E start body c
  | _ => True
  end.

Lemma streamed_snoc : forall start body o, streamed_box start (body ++ [o]) = sb_step (streamed_box start body) o.
Proof. intros. unfold streamed_box. rewrite fold_left_app. reflexivity. Qed.

Lemma attest_inv_quiet : forall E key tr st st' o, attest_inv E key tr st ->
  quiet INS_ATTEST o -> (forall sid, keeps INS_ATTEST sid o) ->
  st_key st' = st_key st -> st_ctx st' = st_ctx st -> attest_inv E key (tr ++ [o]) st'.
Proof.
  intros E key tr st st' o [Hk H] Q K Ek Ec. split; [congruence|]. rewrite Ec. destruct (st_ctx st) as [|x|x|c|g]; try exact I.
  destruct H as (start & body & H1 & H2 & H3 & H4). exists start, (body ++ [o]).
  split; [rewrite session_snoc; destruct Q as [-> _]; rewrite H1; reflexivity|]. split; [exact H2|].
  split; [apply Forall_app; split; [exact H3|]; constructor; [apply K|constructor]|].
  assert (A : attest_allowed start (at_session c) body -> attest_allowed start (at_session c) (body ++ [o])).
  { intros [A|A]; [left; exact A|right; apply approved_snoc; exact A]. }
  assert (S : streamed_box start (body ++ [o]) = streamed_box start body).
  { rewrite streamed_snoc. unfold sb_step. destruct Q as (_ & -> & _). reflexivity. }
  unfold attest_phase in *. rewrite S. destruct (at_state c).
  - destruct H4 as [H4 H5]. split; [exact H4|]. apply Forall_app. split; [exact H5|]. constructor; [|constructor]. destruct Q as [_ Q]. exact Q.
  - destruct H4 as [H4 H5]. auto.
  - destruct H4 as [H4 H5]. auto.
Qed.
Lemma attest_inv_more : forall E key tr st st' o c c' start body, st_key st = key -> st_key st' = key ->
  st_ctx st' = X_ATTEST c' -> session_of INS_ATTEST tr = Some (start, body) -> attest_started start (at_session c) ->
  at_session c' = at_session c -> Forall (keeps INS_ATTEST (at_session c)) body -> is_start INS_ATTEST o = false ->
  keeps INS_ATTEST (at_session c) o -> attest_phase E start (body ++ [o]) c' ->
  attest_inv E key (tr ++ [o]) st'.
Proof.
  intros E key tr st st' o c c' start body Hk Hk' Hx Hs Hst Hsid Hb Ho Hko Hp. split; [exact Hk'|]. rewrite Hx.
  exists start, (body ++ [o]). rewrite session_snoc, Ho, Hs, Hsid.
  do 2 (split; [reflexivity || assumption|]). split; [|exact Hp]. apply Forall_app. split; [assumption|]. constructor; [assumption|constructor].
Qed.
Lemma cont_attest : forall sub p2 data r outs, sub <> 1 -> accepted outs = true ->
  continuation INS_ATTEST (Apdu CLA INS_ATTEST sub p2 data r, outs) = Some (sub, data) /\
  is_start INS_ATTEST (Apdu CLA INS_ATTEST sub p2 data r, outs) = false.
Proof.
  intros sub p2 data r outs H A. apply N.eqb_neq in H. unfold continuation, is_start. rewrite H, A. split; reflexivity.
Qed.
Lemma attest_call_sub : forall sub data call, attest_call sub data = Some call -> sub <> 1.
Proof. intros sub data call H ->. discriminate. Qed.

(** The context of a start command. *)
Lemma attest_new_ok : forall q sid t data a, bytes_ok data = true -> parse_attest_init t data = Ok a -> attest_init_ok a ->
  at_rel (attest_new q sid a) (sb_start data).
Proof.
  intros q sid t data a Hb Hp Hi. destruct (parse_attest_spec _ _ _ Hb Hp) as (P1 & P2 & P3 & P4 & P5 & P6 & P7 & P8 & P9 & P10 & P11 & _).
  unfold attest_init_ok in Hi. rewrite P3, P4, P5, P6, P7 in Hi.
  destruct (box_init (sb_value (sb_start data)) (sb_tree_len (sb_start data)) (sb_height (sb_start data)) (sb_ntokens (sb_start data))
              (sb_regs_len (sb_start data)) [] ([] : list (token_id * N))) as [r x] eqn:Ei.
  destruct (g_init_ok _ _ _ _ _ _ _ _ _ P10 P11 Ei Hi) as (-> & W & _).
  assert (Eg : g_att (sb_start data) = g_init (sb_value (sb_start data)) (sb_tree_len (sb_start data)) (sb_height (sb_start data))
     (sb_ntokens (sb_start data)) (sb_regs_len (sb_start data))) by reflexivity.
  unfold at_rel. split; [constructor; [rewrite Eg; exact W|exact P8|exact P9|constructor|constructor]|].
  unfold attest_new. rewrite P3, P4, P5, P6, P7, Ei. cbn [snd at_id at_index]. split; [exact P1|]. split; [exact P2|].
  rewrite Eg. reflexivity.
Qed.

Lemma attest_inv_holds : forall E key tr st, env_ok E -> history E key tr st -> attest_inv E key tr st.
Proof.
  intros E key tr st Henv H. revert tr st H. apply history_ind_move; [split; [reflexivity|exact I]|].
  intros tr st e outs st' Hh Sh IH Hev M Hd _.
  destruct M; try (exfalso; apply Hd; left; reflexivity);
    try (split; [apply IH|]; cbn; exact I).
  - eapply attest_inv_quiet; eauto; [eapply refused_quiet; eauto|intro; eapply refused_keeps; eauto].
  - eapply attest_inv_quiet; eauto; [apply other_quiet; discriminate|]. intro. right. left. split; [auto|eauto].
  - eapply attest_inv_quiet; eauto; [apply other_quiet; discriminate|]. intro. right. left. split; [auto|eauto].
  - eapply attest_inv_quiet; eauto; [apply not_accepted_quiet; reflexivity|]. intro sid.
    destruct e; cbn [keeps]; try (intros ? ? []; fail); exfalso; [eapply H; reflexivity|congruence].
  - eapply attest_inv_quiet; eauto; [apply not_accepted_quiet; reflexivity|]. intros sid b s [].
  - eapply attest_inv_quiet; eauto; [apply not_accepted_quiet; reflexivity|]. intros sid b s [].
  - destruct b; (split; [apply IH|exact I]).
  - destruct b; (split; [apply IH|exact I]).
  - (* start, known application *)
    split; [apply IH|]. cbn [st_ctx set_ctx]. destruct Hev as (V1 & V2 & V3 & V4 & Hb & V5). apply random_id in H3 as (R1 & _ & R2).
    exists (Apdu CLA INS_ATTEST 1 p2 data r, [OResp [session] SW_OK]), []. split; [rewrite session_snoc; reflexivity|].
    split; [exists p2, data, r, [OResp [session] SW_OK]; do 4 (split; [reflexivity || assumption || (repeat split; tauto)|]); split; [exact R2|left; reflexivity]|].
    split; [constructor|]. unfold attest_phase. cbn [at_state attest_new at_session]. split; [left; reflexivity|].
    eapply attest_new_ok; eauto.
  - split; [apply IH|]. cbn [st_ctx set_ctx show]. destruct Hev as (V1 & V2 & V3 & V4 & Hb & V5). apply random_id in H3 as (R1 & _ & R2).
    exists (Apdu CLA INS_ATTEST 1 p2 data r, [OShow U_ATTEST (attest_flow (ap_token a)) []]), []. split; [rewrite session_snoc; reflexivity|].
    split; [exists p2, data, r, [OShow U_ATTEST (attest_flow (ap_token a)) []]; do 4 (split; [reflexivity || assumption || (repeat split; tauto)|]); split; [exact R2|right; eauto]|].
    split; [constructor|]. unfold attest_phase. cbn [at_state attest_new at_session]. split; [|constructor].
    eapply attest_new_ok; eauto.
  - (* part of the box *)
    destruct IH as [Hk IH]. rewrite H1 in IH. destruct IH as (start & body & I1 & I2 & I3 & I4).
    unfold attest_phase in I4. rewrite H2 in I4. destruct I4 as (I4 & W & X1 & X2 & X3).
    destruct Hev as (_ & _ & _ & _ & Hb & _).
    destruct (cont_attest sub (at_session c) data r [OResp [] SW_OK] (attest_call_sub _ _ _ H3) eq_refl) as [C1 C2].
    assert (Hx : exists rs, call (attest_bs c) = (rs, x) /\ res_pass rs = true) by (destruct H5 as [K|[K _]]; eexists; split; [exact K|reflexivity|exact K|reflexivity]).
    destruct Hx as (rs & Hx & Hr). rewrite X3 in Hx.
    destruct (att_call_ok _ _ _ _ _ _ W Hb H3 Hx Hr) as [W' ->].
    eapply (attest_inv_more E key tr st _ _ c (attest_put c _)); eauto; try reflexivity.
    + left. rewrite C1. auto.
    + unfold attest_phase. cbn [at_state attest_put at_session]. rewrite H2. split.
      * destruct I4 as [I4|I4]; [left; exact I4|right; apply approved_snoc; exact I4].
      * rewrite streamed_snoc. unfold sb_step. rewrite C1. split; [exact W'|].
        assert (F : forall d, sb_tx_id (sb_cmd (streamed_box start body) sub d) = sb_tx_id (streamed_box start body) /\
                              sb_index (sb_cmd (streamed_box start body) sub d) = sb_index (streamed_box start body)).
        { intro d. unfold sb_cmd. repeat match goal with |- context [match ?n with _ => _ end] => is_var n; destruct n end; auto. }
        destruct (F data) as [-> ->]. cbn [at_id at_index attest_put]. do 2 (split; [assumption|]). reflexivity.
  - (* the box is complete *)
    destruct IH as [Hk IH]. rewrite H1 in IH. destruct IH as (start & body & I1 & I2 & I3 & I4).
    unfold attest_phase in I4. rewrite H2 in I4. destruct I4 as (I4 & W & X1 & X2 & X3).
    destruct Hev as (_ & _ & _ & _ & Hb & _).
    match goal with |- attest_inv _ _ (_ ++ [(_, ?outs)]) _ =>
      destruct (cont_attest sub (at_session c) data r outs (attest_call_sub _ _ _ H3) eq_refl) as [C1 C2] end.
    rewrite X3 in H5.
    destruct (att_call_ok _ _ _ _ _ _ W Hb H3 H5 eq_refl) as [W' ->].
    set (b' := sb_cmd (streamed_box start body) sub data) in *.
    assert (F : sb_tx_id b' = sb_tx_id (streamed_box start body) /\ sb_index b' = sb_index (streamed_box start body)).
    { unfold b', sb_cmd. repeat match goal with |- context [match ?n with _ => _ end] => is_var n; destruct n end; auto. }
    destruct F as [F1 F2].
    assert (Hc : sb_complete b' = true).
    { rewrite <- g_att_finished. cbn in H6. unfold g_box_state in H6. unfold g_finished.
      destruct (g_done (g_att b')); [|discriminate]. destruct (blen (g_toks (g_att b')) =? g_ntok (g_att b')); [|discriminate].
      destruct (blen (g_regs (g_att b')) =? g_regs_len (g_att b')); [reflexivity|discriminate]. }
    rewrite X1, X2, <- F1, <- F2 in H7.
    destruct (att_id _ _ _ _ _ W' Hc H7) as [-> Hv].
    eapply (attest_inv_more E key tr st _ _ c (mk_attest AT_FINISHED (at_session c) _ _ _ _ _ _)); eauto; try reflexivity.
    + left. rewrite C1. auto.
    + unfold attest_phase. cbn [at_state at_session at_id at_tokens at_box]. split.
      * destruct I4 as [I4|I4]; [left; exact I4|right; apply approved_snoc; exact I4].
      * rewrite streamed_snoc. unfold sb_step. rewrite C1. fold b'. do 3 (split; [reflexivity || assumption|]). split; [reflexivity|exact Hv].
  - (* a frame *)
    destruct IH as [Hk IH]. rewrite H1 in IH. destruct IH as (start & body & I1 & I2 & I3 & I4).
    match goal with |- attest_inv _ _ (_ ++ [(_, ?outs)]) _ =>
      destruct (cont_attest 5 (at_session c) [i] r outs ltac:(discriminate) eq_refl) as [C1 C2] end.
    eapply (attest_inv_more E key tr st _ _ c c); eauto; try reflexivity.
    + left. rewrite C1. auto.
    + unfold attest_phase in *. rewrite H2 in *. destruct I4 as [I4 I5]. split.
      * destruct I4 as [I4|I4]; [left; exact I4|right; apply approved_snoc; exact I4].
      * rewrite streamed_snoc. unfold sb_step. rewrite C1. exact I5.
  - (* the user decides *)
    destruct IH as [Hk IH]. rewrite H0 in IH. destruct IH as (start & body & I1 & I2 & I3 & I4).
    destruct b; [|split; [exact Hk|exact I]].
    assert (Hg : at_state c = AT_INITIALIZED).
    { unfold shape in Sh. rewrite H0 in Sh. destruct Sh as [_ Sh]. rewrite H in Sh. destruct (at_state c); [reflexivity| |]; destruct Sh; discriminate. }
    unfold attest_phase in I4. rewrite Hg in I4. destruct I4 as ((W & X1 & X2 & X3) & Fo).
    eapply (attest_inv_more E key tr st _ _ c (mk_attest AT_APPROVED (at_session c) _ _ _ _ _ _)); eauto; try reflexivity.
    + cbn [keeps]. intros b z [K|[]]. congruence.
    + unfold attest_phase. cbn [at_state at_session]. split.
      * right. exists body, UiApprove, []. split; [reflexivity|]. split; [auto|exact Fo].
      * rewrite streamed_snoc. unfold sb_step. cbn [continuation]. split; [exact W|]. auto.
  - eapply attest_inv_quiet; eauto; [destruct H0 as [[-> _]|[-> _]]; apply not_accepted_quiet; reflexivity|].
    intros sid. destruct H0 as [[-> _]|[-> _]]; intros b z [].
  - eapply attest_inv_quiet; eauto; [destruct H0 as [[-> _]|[-> _]]; apply not_accepted_quiet; reflexivity|].
    intros sid. destruct H0 as [[-> _]|[-> _]]; intros b z [K|[]]; discriminate.
  - eapply attest_inv_quiet; eauto; [destruct H0 as [[-> _]|[-> _]]; apply not_accepted_quiet; reflexivity|].
    intros sid. destruct H0 as [[-> _]|[-> _]]; intros b z [K|[]]; discriminate.
Qed.
