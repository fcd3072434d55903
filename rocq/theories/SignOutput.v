(** Preservation of the signing invariant: outputs. *)
From Verif Require Import Lib Gve CodecProofs Env SpecVlq SpecTree SpecTx SpecAmounts Bip32 ErgoTree TxTable TxBox TxInput
  TxFull Amounts OutputInfo InputFrame P2pkOp App TreeProofs BoxProofs AmountProofs SignInv SignInput SignData.

#[local] Arguments N.eqb : simpl never.
#[local] Arguments N.ltb : simpl never.
#[local] Arguments N.leb : simpl never.
#[local] Arguments N.sub : simpl never.
#[local] Arguments blen : simpl never.
#[local] Arguments num : simpl never.
#[local] Arguments slice : simpl never.

(** ** The list of outputs *)

Definition with_outs (d : s_tx) (l : list s_output) : s_tx := on_outputs (fun _ => l) d.

(** Bytes before the current output. *)
Definition out_base (E : env) (d : s_tx) (h : s_head) (pre : list s_output) : bytes :=
  vlq (sh_inputs h) ++ concat (map in_bytes (sx_inputs d)) ++ vlq (sh_data h) ++ concat (sx_data d) ++
  vlq (sh_tokens h) ++ concat (sx_tokens d) ++ vlq (sh_outputs h) ++ concat (map (output_bytes_so_far E) pre).

Lemma tx_bytes_outs : forall E d h l, inputs_in d h = true -> data_in d h = true ->
  tx_bytes E (with_outs d l) h = out_base E d h l.
Proof.
  intros E d h l H1 H2. unfold tx_bytes, out_base.
  change (inputs_in (with_outs d l) h) with (inputs_in d h). change (data_in (with_outs d l) h) with (data_in d h).
  rewrite H1, H2. reflexivity.
Qed.
Lemma out_base_snoc : forall E d h pre o, out_base E d h (pre ++ [o]) = out_base E d h pre ++ gbytes (g_of E o).
Proof.
  intros. unfold out_base. rewrite map_app, concat_app. cbn [map concat]. rewrite app_nil_r, g_of_bytes, <- !app_assoc. reflexivity.
Qed.
Lemma with_outs_same : forall d, with_outs d (sx_outputs d) = d.
Proof. intros []. reflexivity. Qed.
Lemma upd_outs : forall d f pre o, sx_outputs d = pre ++ [o] -> on_outputs (upd_last f) d = with_outs d (pre ++ [f o]).
Proof. intros d f pre o H. unfold with_outs, on_outputs. rewrite H, upd_last_snoc. reflexivity. Qed.
Lemma done_outs : forall d pre o, done_outputs (with_outs d (pre ++ [o])) =
  count_complete output_complete pre + (if output_complete o then 1 else 0).
Proof. intros. unfold done_outputs. cbn. rewrite count_app, count_one. reflexivity. Qed.
Lemma tokens_of_same : forall d d' o, sx_tokens d' = sx_tokens d -> tokens_of d' o = tokens_of d o.
Proof. intros d d' o H. unfold tokens_of. rewrite H. reflexivity. Qed.

Lemma wf_outs : forall E d h l,
  wf E d h -> inputs_in d h = true -> data_in d h = true ->
  Forall (out_wf E (sh_tokens h)) l ->
  (forall pre o, l = pre ++ [o] -> count_complete output_complete pre < sh_outputs h) ->
  Forall (fun o => once (tokens_of d o)) l ->
  wf E (with_outs d l) h.
Proof.
  intros E d h l W Hi Hd F1 F2 F3. destruct W. constructor; cbn; try assumption.
  intros _. split; assumption.
Qed.

Lemma silent_same : forall d d' path last o, sx_tokens d' = sx_tokens d -> sx_inputs d' = sx_inputs d ->
  silent d' path last o = silent d path last o.
Proof.
  intros d d' path last o H1 H2. unfold silent, table_of, input_tokens. rewrite H1, H2.
  destruct (so_dest o) as [[]|]; try reflexivity. rewrite (tokens_of_same d d') by assumption. reflexivity.
Qed.
Lemma settled_same : forall d d' path l, sx_tokens d' = sx_tokens d -> sx_inputs d' = sx_inputs d ->
  settled d path l -> settled d' path l.
Proof. intros d d' path l H1 H2 S pre o post Hl. rewrite (silent_same d d') by assumption. apply (S pre o post). assumption. Qed.
Lemma settled_app : forall d path a b, settled d path (a ++ b) -> settled d path a.
Proof. intros d path a b S pre o post ->. apply (S pre o (post ++ b)). rewrite <- app_assoc. reflexivity. Qed.
Lemma settled_last : forall d path pre o, settled d path (pre ++ [o]) ->
  so_shown o = output_complete o && negb (silent d path (last_approved pre) o) /\ so_approved o = so_shown o.
Proof. intros d path pre o S. apply (S pre o []). reflexivity. Qed.
Lemma fresh_outs : forall d path pre o' , settled d path pre -> so_shown o' = false -> so_approved o' = false ->
  fresh (with_outs d (pre ++ [o'])) path (pre ++ [o']).
Proof.
  intros d path pre o' S H1 H2 p x Hx. apply snoc_inj in Hx as [<- <-]. split; [|auto].
  apply (settled_same d); [reflexivity|reflexivity|assumption].
Qed.
Lemma last_approved_hidden : forall pre o, so_shown o = false -> last_approved (pre ++ [o]) = last_approved pre.
Proof. intros pre o H. unfold last_approved. rewrite fold_left_app. cbn. unfold approved_path at 1. rewrite H. reflexivity. Qed.

(** ** Opening an output *)

Lemma parse_output_init_ok : forall data v t hh n r, parse_output_init data = Ok (v, t, hh, n, r) ->
  v = num 0 8 data /\ t = num 8 4 data /\ hh = num 12 4 data /\ n = num 16 1 data /\ r = num 17 4 data /\ length data = 21%nat.
Proof.
  intros data v t hh n r H. unfold parse_output_init in H.
  parse_one H b1 L1. parse_one H b2 L2. parse_one H b3 L3. parse_one H b4 L4. parse_one H b5 L5.
  apply finished_ok in H as [-> H]. injection H as <- <- <- <- <-. rewrite app_nil_r.
  split; [fields; reflexivity|]. split; [fields; reflexivity|]. split; [fields; reflexivity|].
  split; [fields; reflexivity|]. split; [fields; reflexivity|]. rewrite !app_length. lia.
Qed.

Lemma full_outs : forall E d h pre o, wf E d h -> inputs_in d h = true -> data_in d h = true -> tokens_in d h = true ->
  full_of E (with_outs d (pre ++ [o])) h =
  mk_full (if outputs_in (with_outs d (pre ++ [o])) h then FL_FINISHED else FL_OUTPUTS_STARTED) 0 0
          (sh_outputs h - done_outputs (with_outs d (pre ++ [o]))) (sh_tokens h)
          (FU_BOX (gstate (g_of E o)) true).
Proof.
  intros E d h pre o W Hi Hd Ht. unfold full_of, phase_of.
  change (inputs_in (with_outs d (pre ++ [o])) h) with (inputs_in d h). change (data_in (with_outs d (pre ++ [o])) h) with (data_in d h).
  change (tokens_in (with_outs d (pre ++ [o])) h) with (tokens_in d h). rewrite Hi, Hd, Ht. cbn [negb].
  change (done_inputs (with_outs d (pre ++ [o]))) with (done_inputs d). cbn [with_outs on_outputs sx_data].
  unfold inputs_in, data_in in *. apply N.eqb_eq in Hi, Hd. rewrite Hi, Hd, !N.sub_diag.
  unfold union_of. cbn [with_outs on_outputs sx_outputs]. rewrite last_of_snoc.
  f_equal. destruct (outputs_in _ h); reflexivity.
Qed.

Lemma am_rel_outs : forall d l a, amounts_rel d a ->
  fees (with_outs d l) = fees d -> change (with_outs d l) = change d -> output_tokens (with_outs d l) = output_tokens d ->
  amounts_rel (with_outs d l) a.
Proof.
  intros d l a [A1 A2 A3 A4 A5] H1 H2 H3. constructor.
  - congruence.
  - rewrite H1, H2. exact A2.
  - exact A3.
  - exact A4.
  - eapply am_rel_ext; [|exact A5]. intro x. unfold balance. rewrite H3. reflexivity.
Qed.

Lemma fees_snoc : forall d pre o, fees (with_outs d (pre ++ [o])) =
  total (map so_value (filter is_fee pre)) + (if is_fee o then so_value o else 0).
Proof.
  intros. unfold fees. cbn [with_outs on_outputs sx_outputs]. rewrite filter_app, map_app, total_app. f_equal. cbn. destruct (is_fee o); cbn; lia.
Qed.
Lemma change_snoc : forall d pre o, change (with_outs d (pre ++ [o])) =
  total (map so_value (filter is_change pre)) + (if is_change o then so_value o else 0).
Proof.
  intros. unfold change. cbn [with_outs on_outputs sx_outputs]. rewrite filter_app, map_app, total_app. f_equal. cbn. destruct (is_change o); cbn; lia.
Qed.
Lemma output_tokens_snoc : forall d pre o, output_tokens (with_outs d (pre ++ [o])) =
  concat (map (tokens_of d) pre) ++ tokens_of d o.
Proof.
  intros. unfold output_tokens. cbn [with_outs on_outputs sx_outputs]. rewrite map_app, concat_app. cbn. rewrite app_nil_r. reflexivity.
Qed.

Lemma once_nil : once [].
Proof. intros [|? a] x b H; discriminate. Qed.
Lemma amount_zero : forall id l x, amount_of id l = 0 -> In x l -> fst x = id -> snd x = 0.
Proof.
  intros id l. induction l as [|[i v] l IH]; intros x H Hin Hx; [destruct Hin|]. rewrite amount_of_cons in H.
  destruct Hin as [<-|Hin].
  - cbn in *. subst i. rewrite bytes_eqb_refl in H. lia.
  - apply IH; try assumption. lia.
Qed.
Lemma once_snoc : forall l x, once l -> amount_of (fst x) l = 0 -> once (l ++ [x]).
Proof.
  intros l x H H0 a y b Hl Hy. destruct (snoc_cases _ b) as [->|(b' & z & ->)]; [intros []|].
  replace (a ++ y :: b' ++ [z]) with ((a ++ y :: b') ++ [z]) in Hl by (rewrite <- app_assoc; reflexivity).
  apply snoc_inj in Hl as [-> ->]. rewrite map_app, in_app_iff. intros [Hin|[Hin|[]]].
  - apply (H a y b' eq_refl Hy Hin).
  - apply Hy. eapply amount_zero; [exact H0| |symmetry; exact Hin]. apply in_or_app. right. left. reflexivity.
Qed.


Lemma add_output_open_ok : forall E s d h op data op',
  bytes_ok data = true -> wf E d h -> op_tx E s d h op -> settled d (ss_path s) (sx_outputs d) ->
  bind (parse_output_init data) (fun '(v, t, hh, n, r) => p2pk_add_output op v t hh n r) = Ok op' ->
  let d' := describe_cmd d 0x15 data in
  wf E d' h /\ op_tx E s d' h op' /\ settled d' (ss_path s) (sx_outputs d').
Proof.
  intros E s d h op data op' Hok W T St H d'.
  apply bind_ok in H as ([[[[v t] hh] n] r] & Hp & H). apply parse_output_init_ok in Hp as (-> & -> & -> & -> & -> & Hl).
  pose proof T as (Hfix & Hst & Hh & Ha & oi & Hi & Hu). unfold p2pk_add_output in H.
  set (g := g_init (num 0 8 data) (num 8 4 data) (num 12 4 data) (num 16 1 data) (num 17 4 data)).
  set (o := mk_so (num 0 8 data) (num 8 4 data) (num 12 4 data) (num 16 1 data) (num 17 4 data) None [] [] false false).
  change d' with (with_outs d (sx_outputs d ++ [o])). clear d'. set (d' := with_outs d (sx_outputs d ++ [o])).
  assert (Eg : g_of E o = g) by reflexivity.
  assert (H' : bind (tx_call op (fun s => full_add_box s (num 0 8 data) (num 8 4 data) (num 12 4 data) (num 16 1 data) (num 17 4 data)))
           (fun c => bind (tx_call c full_set_box_callbacks) (fun c =>
      match op_union_of c with
      | OU_TX t => Ok (op_set_state (op_set_union c (OU_TX (mk_tx (tx_full t) (Some (output_info_init (num 0 8 data))) (tx_last_approved t)))) OP_OUTPUTS_STARTED)
      | _ => Fail SW_UB
      end)) = Ok op') by (destruct (op_state_of op); (discriminate || exact H)).
  clear H. apply bind_ok in H' as (c1 & H1 & H). apply tx_call_ok in H1 as (t & r & s1 & Ht & Hc & Hr & ->).
  destruct (op_tx_fs _ _ _ _ _ _ T Ht) as [Hfs Hinfo]. rewrite Hfs in Hc.
  unfold full_add_box in Hc.
  destruct (fl_state (fs_full (fs_of E s d h (op_amounts op, tx_output t)))) eqn:Eph; try (bad Hc).
  change (phase_of d h = FL_OUTPUTS_STARTED) in Eph. destruct (outputs_phase _ _ Eph) as (Htok & Hin & Hda & Hout).
  destruct (fl_outputs_count (fs_full (fs_of E s d h (op_amounts op, tx_output t))) =? 0) eqn:Eo; [bad Hc|].
  change (sh_outputs h - done_outputs d =? 0 = false) in Eo. apply N.eqb_neq in Eo.
  cbn [fs_hash fs_cb fs_of] in Hc.
  match type of Hc with context [let '(_, _) := ?x in _] => destruct x as [r1 b1] eqn:Eb end.
  destruct (res_pass r1) eqn:Er1; [|bad Hc].
  apply g_init_ok in Eb; [|apply (num_bound 0 8); assumption|apply (num_bound 12 4); assumption|assumption].
  destruct Eb as (-> & Wg & ->). fold g in Hc, Wg. injection Hc as <- <-.
  apply bind_ok in H as (c2 & H2 & H). apply tx_call_ok in H2 as (t2 & r2 & s2 & Ht2 & Hc2 & Hr2 & ->).
  cbn [op_put op_union_of] in Ht2. injection Ht2 as <-.
  unfold full_set_box_callbacks, op_fs in Hc2. cbn [tx_full fs_full full_set_union fl_state fl_union] in Hc2.
  change (fl_state (full_of E d h)) with (phase_of d h) in Hc2. rewrite Eph in Hc2. injection Hc2 as <- <-.
  cbn in H. injection H as <-.
  assert (Tb : tx_bytes E d h = out_base E d h (sx_outputs d)).
  { rewrite <- (with_outs_same d) at 1. apply tx_bytes_outs; assumption. }
  assert (Hlt : count_complete output_complete (sx_outputs d) < sh_outputs h) by (unfold done_outputs in Eo; lia).
  assert (Ocp : output_complete o = false) by reflexivity.
  assert (Od : outputs_in d' h = false).
  { unfold outputs_in, d'. rewrite done_outs, Ocp. apply N.eqb_neq. lia. }
  assert (Onn : op_phase d' h = OP_OUTPUTS_STARTED).
  { unfold op_phase. rewrite Od. cbn [d' with_outs on_outputs sx_outputs]. destruct (sx_outputs d); reflexivity. }
  split; [|split].
  - apply wf_outs; try assumption.
    + apply Forall_snoc. split; [apply W|]. constructor.
      * exact Wg.
      * discriminate.
      * discriminate.
      * constructor.
    + intros pre x Hx. apply snoc_inj in Hx as [<- _]. assumption.
    + apply Forall_snoc. split; [apply W|apply once_nil].
  - split; [exact Hfix|]. split; [cbn; congruence|]. split.
    { cbn [op_hash op_set_state op_set_union op_put fs_hash gs bs_hash].
      unfold d'. rewrite tx_bytes_outs, out_base_snoc, Tb, Eg, <- app_assoc by assumption. reflexivity. }
    split.
    { cbn. apply am_rel_outs; try assumption.
      - rewrite fees_snoc. cbn. unfold fees. lia.
      - rewrite change_snoc. cbn. unfold change. lia.
      - rewrite output_tokens_snoc. apply app_nil_r. }
    exists (Some (output_info_init (num 0 8 data))). split.
    { unfold last_info. cbn [d' with_outs on_outputs sx_outputs]. rewrite last_of_snoc. eexists. split; [reflexivity|].
      constructor; try reflexivity. cbn [oi_tokens output_info_init]. eapply oi_rel_ext; [|apply oi_rel_init]. reflexivity. }
    cbn [op_union_of op_set_state op_set_union op_put]. f_equal. unfold d'. rewrite full_outs by assumption.
    change (with_outs d (sx_outputs d ++ [o])) with d'. rewrite Od, Eg. unfold d'. rewrite done_outs, Ocp, N.add_0_r.
    cbn [with_outs on_outputs sx_outputs]. rewrite last_approved_hidden by reflexivity.
    rewrite Hu in Ht. injection Ht as <-. cbn. f_equal. unfold full_of, full_set_union. cbn. rewrite Eph.
    unfold inputs_in, data_in in Hin, Hda. apply N.eqb_eq in Hin, Hda. rewrite Hin, Hda, !N.sub_diag. reflexivity.
  - intros pre x post Hx. cbn [d' with_outs on_outputs sx_outputs] in Hx.
    destruct (snoc_cases _ post) as [->|(post' & y & ->)].
    + apply snoc_inj in Hx as [<- <-]. split; reflexivity.
    + replace (pre ++ x :: post' ++ [y]) with ((pre ++ x :: post') ++ [y]) in Hx by (rewrite <- app_assoc; reflexivity).
      apply snoc_inj in Hx as [Hx _]. rewrite (silent_same d d') by reflexivity. apply (St pre x post'). assumption.
Qed.
