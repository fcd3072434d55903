(** The sample transaction on the ledger. *)
From Verif Require Import Lib Env UiFlow App SpecVlq SpecTree SpecTrace SpecTx SpecApdu SpecAmounts SpecRules SpecScript SpecNode SpecCost Toy RulesToy ScriptProofs.

(** The box of the sample as the ledger has it. *)
Definition LEDGER_BOX : n_box :=
  let b := box_at (trace ATTEST_FRAME) 4 in
  mk_nb (sb_value b) BOX_TREE (sb_height b) (sb_tokens b) [0] (sb_tx_id b) (sb_index b).
Definition SAMPLE_TX : n_tx := node_tx toy (tx_of SIGN_ALL).
Lemma sample_spends : spends toy SAMPLE_TX [LEDGER_BOX].
Proof.
  unfold spends. assert (H : nt_inputs SAMPLE_TX = [(e_blake toy (n_box_bytes LEDGER_BOX), [0])]) by (vm_compute; reflexivity). rewrite H.
  apply Forall2_cons; [reflexivity|apply Forall2_nil].
Qed.

(** A check that every box attested in a history has the given bytes. *)
Fixpoint all_boxes (P : s_box -> bool) (s : option (obs * list obs)) (tr : list obs) : bool :=
  match s with
  | Some (st, b) => if sb_complete (streamed_box st b) then P (streamed_box st b) else true
  | None => true
  end &&
  match tr with
  | [] => true
  | o :: t => all_boxes P (if is_start INS_ATTEST o then Some (o, []) else match s with Some (b, l) => Some (b, l ++ [o]) | None => None end) t
  end.
Lemma all_boxes_spec : forall P pre post s, all_boxes P s (pre ++ post) = true ->
  forall start body, fold_left (fun s o => if is_start INS_ATTEST o then Some (o, []) else match s with Some (b, l) => Some (b, l ++ [o]) | None => None end) pre s = Some (start, body) ->
  sb_complete (streamed_box start body) = true -> P (streamed_box start body) = true.
Proof.
  intros P pre. induction pre as [|o pre IH]; intros post s H start body Hs Hc.
  - cbn [fold_left] in Hs. subst s. cbn [List.app] in H. destruct post; cbn [all_boxes] in H; rewrite Hc in H; apply andb_true_iff in H; tauto.
  - cbn [List.app all_boxes] in H. apply andb_true_iff in H as [_ H]. cbn [fold_left] in Hs. exact (IH _ _ H _ _ Hs Hc).
Qed.
Lemma attested_all : forall P E key tr, all_boxes P None tr = true -> forall a, attested_box E key tr a -> P a = true.
Proof.
  intros P E key tr H a (pre & o & post & start & body & i & -> & S & -> & C & _). exact (all_boxes_spec _ _ _ _ H _ _ S C).
Qed.
Definition is_sample (b : s_box) : bool :=
  bytes_eqb (box_bytes b) (n_box_bytes LEDGER_BOX) && match sb_tree b with Some t => bytes_eqb t BOX_TREE | None => false end && (sb_regs_len b =? 0).
Lemma sample_boxes : forall a, attested_box toy TOY_KEY (before_last SIGN_ALL) a ->
  box_bytes a = n_box_bytes LEDGER_BOX /\ sb_tree a = Some BOX_TREE /\ sb_regs_len a = 0.
Proof.
  intros a A. assert (H : is_sample a = true) by (revert a A; apply attested_all; vm_compute; reflexivity).
  unfold is_sample in H. apply andb_true_iff in H as [H H3]. apply andb_true_iff in H as [H1 H2]. apply bytes_eqb_eq in H1. apply N.eqb_eq in H3.
  destruct (sb_tree a) as [t|]; [|discriminate]. apply bytes_eqb_eq in H2. subst t. auto.
Qed.
Lemma sample_free : collision_free toy TOY_KEY (before_last SIGN_ALL) [LEDGER_BOX].
Proof. intros a b A [<-|[]] _. apply sample_boxes. exact A. Qed.
Lemma sample_readable_boxes : attested_readable toy TOY_KEY (before_last SIGN_ALL) standard.
Proof.
  intros a A. destruct (sample_boxes a A) as (B & T & R). split.
  - split; [exists BOX_TREE; split; [exact T|]|rewrite R; left; reflexivity].
    left. exists (3 :: repeat 5 32). split; [reflexivity|]. split; [reflexivity|right; reflexivity].
  - intros a' A' _. destruct (sample_boxes a' A') as (B' & _). congruence.
Qed.
Lemma sample_ledger : Forall (readable_on_ledger standard) [LEDGER_BOX].
Proof.
  constructor; [|constructor]. split; [|split].
  - left. exists (3 :: repeat 5 32). split; [reflexivity|]. split; [reflexivity|right; reflexivity].
  - left. reflexivity.
  - apply Forall_forall. intros x Hx. vm_compute in Hx. destruct Hx as [<-|[]]. reflexivity.
Qed.
Lemma no_forgery_before : forall tr o, no_forgery (tr ++ [o]) -> no_forgery tr.
Proof. intros tr o H pre c post data E C. apply (H pre c (post ++ [o]) data); [|exact C]. rewrite E, <- app_assoc. reflexivity. Qed.
Lemma sample_unforged : no_forgery (before_last SIGN_ALL).
Proof.
  apply (no_forgery_before _ (last (trace SIGN_ALL) NO_OBS)). unfold before_last. rewrite <- app_removelast_last by (vm_compute; discriminate). exact sample_no_forgery.
Qed.
