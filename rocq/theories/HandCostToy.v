(** The sample run by buttons with failing calls (PropFaultRun), up to the signature. *)
From Verif Require Import Lib Env UiFlow App Fault LowApp SpecVlq SpecTree SpecTrace SpecTx SpecApdu SpecAmounts SpecSign SpecRules SpecScript SpecNode SpecCost SpecFault Toy RulesToy ScriptProofs CostToy
  Buttons SpecButtons ButtonToy FaultButtons SpecFaultRun FaultToy PropFaultRun.

Definition HAND_ACTS : list (faults * action) := map (pair HASHES_FAIL) (firstn 4 TO_CONFIRM) ++ AT_APPROVE.
Definition HAND_BEFORE : list fdeed := fdeeds HAND_ACTS.
Notation HAND_SEEN := (happened (map snd HAND_BEFORE)).
Lemma hand_run : exists F o d, foperated toy toy_ux TOY_KEY (HAND_BEFORE ++ [(F, (Press BOTH, [o]))]) d /\ signature o <> None.
Proof.
  assert (H : foperated toy toy_ux TOY_KEY HAND_BEFORE (fafter HAND_ACTS)).
  { apply fdeeds_operated. apply Forall_app. split; [apply mild_with; right; left; reflexivity|apply mild_with; left; reflexivity]. }
  assert (K : match snd (foperate toy FINE toy_ux (fafter HAND_ACTS) (Press BOTH)) with
              | [o] => match signature o with Some _ => soundb [o] | None => false end
              | _ => false
              end = true) by (vm_compute; reflexivity).
  destruct (foperate toy FINE toy_ux (fafter HAND_ACTS) (Press BOTH)) as [d os] eqn:Op. cbn [snd] in K. destruct os as [|o [|]]; try discriminate K.
  destruct (signature o) eqn:S; [|discriminate K]. destruct (mild_ok FINE (or_introl eq_refl)) as [M1 M2].
  exists FINE, o, d. split; [|rewrite S; discriminate]. eapply foperated_more; [exact H|exact M1|exact M2|exact I|exact Op|apply soundb_ok; exact K].
Qed.
Lemma hand_unforged : no_forgery HAND_SEEN.
Proof. intros pre c post data E C. apply (unforged_dec HAND_SEEN []) with (c := c) (post := post); [vm_compute; reflexivity|exact E|exact C]. Qed.
Lemma hand_described : option_map (fun x => description (snd x)) (session_of INS_SIGN HAND_SEEN) = Some (tx_of SIGN_ALL).
Proof. vm_compute. reflexivity. Qed.
Lemma hand_boxes : forall a, attested_box toy TOY_KEY HAND_SEEN a ->
  box_bytes a = n_box_bytes LEDGER_BOX /\ sb_tree a = Some BOX_TREE /\ sb_regs_len a = 0.
Proof.
  intros a A. assert (H : is_sample a = true) by (revert a A; apply attested_all; vm_compute; reflexivity).
  unfold is_sample in H. apply andb_true_iff in H as [H H3]. apply andb_true_iff in H as [H1 H2]. apply bytes_eqb_eq in H1. apply N.eqb_eq in H3.
  destruct (sb_tree a) as [t|]; [|discriminate]. apply bytes_eqb_eq in H2. subst t. auto.
Qed.
Lemma hand_free : collision_free toy TOY_KEY HAND_SEEN [LEDGER_BOX].
Proof. intros a b A [<-|[]] _. apply hand_boxes. exact A. Qed.
Lemma hand_readable : attested_readable toy TOY_KEY HAND_SEEN standard.
Proof.
  intros a A. destruct (hand_boxes a A) as (B & T & R). split.
  - split; [exists BOX_TREE; split; [exact T|]|rewrite R; left; reflexivity].
    left. exists (3 :: repeat 5 32). split; [reflexivity|]. split; [reflexivity|right; reflexivity].
  - intros a' A' _. destruct (hand_boxes a' A') as (B' & _). congruence.
Qed.
