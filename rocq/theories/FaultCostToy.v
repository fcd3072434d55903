(** The sample run with failing calls (PropFault) as one that ends with a signature on the
    sample transaction. *)
From Verif Require Import Lib Env UiFlow App Fault LowApp SpecVlq SpecTree SpecTrace SpecTx SpecApdu SpecAmounts SpecSign SpecRules SpecScript SpecNode SpecCost SpecFault Toy RulesToy ScriptProofs CostToy PropRules FaultProofs PropFault.

Definition FAILING_RUN : list (faults * obs) := match fplay toy (init TOY_KEY) WITH_FAILURES with Some (tr, _) => tr | None => [] end.
Definition FAILING_END : state := match fplay toy (init TOY_KEY) WITH_FAILURES with Some (_, st) => st | None => init TOY_KEY end.
Definition FAILING_BEFORE : list (faults * obs) := removelast FAILING_RUN.
Definition FAILING_LAST : obs := snd (last FAILING_RUN (FINE, NO_OBS)).
Lemma failing_history : fhistory toy TOY_KEY FAILING_RUN FAILING_END.
Proof.
  pose proof C68_runs as R. unfold FAILING_RUN, FAILING_END. destruct (fplay toy (init TOY_KEY) WITH_FAILURES) as [[tr st]|] eqn:P; [|discriminate R].
  eapply fplay_fhistory; [|exact P]. repeat (apply Forall_app; split); apply Forall_forall; intros x H; apply in_map_iff in H as (e & <- & _);
    (split; [apply (quiet_stack (fun _ _ => None))|intros k l; reflexivity]).
Qed.
Lemma failing_split : exists F, fhistory toy TOY_KEY (FAILING_BEFORE ++ [(F, FAILING_LAST)]) FAILING_END.
Proof.
  exists (fst (last FAILING_RUN (FINE, NO_OBS))). unfold FAILING_BEFORE, FAILING_LAST. rewrite <- surjective_pairing, <- app_removelast_last; [exact failing_history|vm_compute; discriminate].
Qed.
Lemma failing_signed : signature FAILING_LAST <> None. Proof. vm_compute. discriminate. Qed.
Lemma failing_unforged : no_forgery (map snd FAILING_BEFORE).
Proof. intros pre c post data E C. apply (unforged_dec (map snd FAILING_BEFORE) []) with (c := c) (post := post); [vm_compute; reflexivity|exact E|exact C]. Qed.
Lemma failing_described : option_map (fun x => description (snd x)) (session_of INS_SIGN (map snd FAILING_BEFORE)) = Some (tx_of SIGN_ALL).
Proof. vm_compute. reflexivity. Qed.
Lemma failing_boxes : forall a, attested_box toy TOY_KEY (map snd FAILING_BEFORE) a ->
  box_bytes a = n_box_bytes LEDGER_BOX /\ sb_tree a = Some BOX_TREE /\ sb_regs_len a = 0.
Proof.
  intros a A. assert (H : is_sample a = true) by (revert a A; apply attested_all; vm_compute; reflexivity).
  unfold is_sample in H. apply andb_true_iff in H as [H H3]. apply andb_true_iff in H as [H1 H2]. apply bytes_eqb_eq in H1. apply N.eqb_eq in H3.
  destruct (sb_tree a) as [t|]; [|discriminate]. apply bytes_eqb_eq in H2. subst t. auto.
Qed.
Lemma failing_free : collision_free toy TOY_KEY (map snd FAILING_BEFORE) [LEDGER_BOX].
Proof. intros a b A [<-|[]] _. apply failing_boxes. exact A. Qed.
Lemma failing_readable : attested_readable toy TOY_KEY (map snd FAILING_BEFORE) standard.
Proof.
  intros a A. destruct (failing_boxes a A) as (B & T & R). split.
  - split; [exists BOX_TREE; split; [exact T|]|rewrite R; left; reflexivity].
    left. exists (3 :: repeat 5 32). split; [reflexivity|]. split; [reflexivity|right; reflexivity].
  - intros a' A' _. destruct (failing_boxes a' A') as (B' & _). congruence.
Qed.
