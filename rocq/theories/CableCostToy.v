(** The sample run at the cable with failing calls (PropFaultWhole), up to the signature, with
    what the device does in it. *)
From Verif Require Import SpecScreen Lib Env UiFlow App SpecVlq SpecTree SpecTrace SpecTx SpecApdu SpecAmounts SpecSign SpecRules SpecScript SpecNode SpecCost Toy RulesToy ScriptProofs CostToy
  ReadApp SpecRaw Wire SpecWire Restart Fault LowApp SpecFault Buttons SpecButtons ButtonToy Whole SpecWhole WholeAll WholeToy FaultButtons SpecFaultRun FaultToy FaultWhole SpecFaultWhole FaultWholeToy
  FaultWholeProofs PropFaultWhole SpecCableCost CableCost.

Fixpoint fdone (w : whole) (acts : list (faults * action)) : option (list fdeed) :=
  match acts with
  | [] => Some []
  | (F, a) :: t =>
      let '(w1, l) := fwhole_step toy F toy_ux w (done_by a) in
      if action_okb a && WholeToy.quiet l then
        match fdone w1 t with Some tr => Some ((F, (understood (done_by a), snd (foperate toy F toy_ux (wh_dev w) (understood (done_by a))))) :: tr) | None => None end
      else None
  end.
Lemma fdone_does : forall acts mem page io key tr l w tr' w' l', blen io = 260 -> Forall (fun x => mild (fst x)) acts -> fdoes toy toy_ux (power_on mem page io key) tr l w ->
  flive w acts = Some (tr', w') -> fdone w acts = Some l' -> fdoes toy toy_ux (power_on mem page io key) (tr ++ tr') (l ++ l') w'.
Proof.
  induction acts as [|[F a] acts IH]; intros mem page io key tr l w tr' w' l' Hio M H L D; cbn [flive fdone] in L, D.
  - assert (tr' = []) as -> by congruence. assert (w' = w) as -> by congruence. assert (l' = []) as -> by congruence. rewrite !app_nil_r. exact H.
  - destruct (fwhole_step toy F toy_ux w (done_by a)) as [w1 lw] eqn:Hs. destruct (action_okb a && WholeToy.quiet lw) eqn:B; [|discriminate L]. apply andb_true_iff in B as [B1 B2].
    destruct (flive w1 acts) as [[tr2 w2]|] eqn:L2; [|discriminate L]. destruct (fdone w1 acts) as [l2|] eqn:D2; [|discriminate D]. assert (w' = w2) as -> by congruence. set (m := mk_moment _ _ _) in L. assert (tr' = (F, m) :: tr2) as -> by congruence.
    set (x := (F, (understood (done_by a), _))) in D. assert (l' = x :: l2) as -> by congruence.
    replace (tr ++ (F, m) :: tr2) with ((tr ++ [(F, m)]) ++ tr2) by (rewrite <- app_assoc; reflexivity). replace (l ++ x :: l2) with ((l ++ [x]) ++ l2) by (rewrite <- app_assoc; reflexivity).
    pose proof (Forall_inv M) as M1. cbn [fst] in M1. destruct (mild_ok _ M1) as [M2 M3].
    eapply IH; [exact Hio|exact (Forall_inv_tail M)| |exact L2|exact D2]. subst m x.
    assert (Ha : act_ok (done_by a)) by (apply done_ok, action_okb_ok; exact B1).
    destruct (does_follows _ _ _ _ _ _ toy_ok Hio _ _ _ H) as [(_ & _ & _ & _ & _ & Li) _]. destruct (fwhole_operate _ _ _ _ _ _ _ Ha Li Hs) as (os & io0 & _ & Ho & _).
    eapply fdoes_more; [exact H|exact M2|exact M3|exact Ha|exact Hs|apply (WholeToy.quiet_ok _ _ B2); auto|apply (WholeToy.quiet_ok _ _ B2); auto|]. rewrite Ho. reflexivity.
Qed.

Definition CABLE_DONE : list fdeed := match fdone SECOND_POWER TO_APPROVE with Some l => l | None => [] end.
Definition CABLE_BEFORE : list (faults * moment) := fst (flived SECOND_POWER TO_APPROVE).
Definition CABLE_AT : whole := snd (flived SECOND_POWER TO_APPROVE).
Notation CABLE_SEEN := (happened (map snd CABLE_DONE)).
Lemma second_io : blen (wh_io (snd FIRST)) = 260. Proof. vm_compute. reflexivity. Qed.
Lemma second_does : forall acts tr l w tr' w' l', Forall (fun x => mild (fst x)) acts -> fdoes toy toy_ux SECOND_POWER tr l w ->
  flive w acts = Some (tr', w') -> fdone w acts = Some l' -> fdoes toy toy_ux SECOND_POWER (tr ++ tr') (l ++ l') w'.
Proof.
  intros acts tr l w tr' w' l'. pose proof second_io as Hio. unfold SECOND_POWER. cbv zeta. revert Hio. generalize (snd FIRST). intros w0 Hio M H L D.
  eapply fdone_does; eassumption.
Qed.
Lemma cable_before : fdoes toy toy_ux SECOND_POWER CABLE_BEFORE CABLE_DONE CABLE_AT.
Proof.
  assert (K : match flive SECOND_POWER TO_APPROVE, fdone SECOND_POWER TO_APPROVE with Some _, Some _ => true | _, _ => false end = true) by (vm_compute; reflexivity).
  unfold CABLE_BEFORE, CABLE_DONE, CABLE_AT, flived. destruct (flive SECOND_POWER TO_APPROVE) as [[tr w]|] eqn:L; [|discriminate K]. destruct (fdone SECOND_POWER TO_APPROVE) as [l|] eqn:D; [|discriminate K]. cbn [fst snd].
  apply (second_does TO_APPROVE [] [] SECOND_POWER tr w l approve_mild (fdoes_start _ _ _) L D).
Qed.
Lemma cable_run : exists F m x w p, fdoes toy toy_ux SECOND_POWER (CABLE_BEFORE ++ [(F, m)]) (CABLE_DONE ++ [x]) w /\ In p (mo_sent m) /\ length p = 58%nat /\ skipn 56 p = [0x90; 0].
Proof.
  assert (K : match flive CABLE_AT [(FINE, Press BOTH)] with
              | Some ([(_, m)], _) => match mo_sent m with [p] => Nat.eqb (length p) 58 && bytes_eqb (skipn 56 p) [0x90; 0] | _ => false end
              | _ => false
              end = true) by (vm_compute; reflexivity).
  assert (K' : match fdone CABLE_AT [(FINE, Press BOTH)] with Some [_] => true | _ => false end = true) by (vm_compute; reflexivity).
  destruct (flive CABLE_AT [(FINE, Press BOTH)]) as [[tr w]|] eqn:L; [|discriminate K]. destruct tr as [|[F m] [|]]; [discriminate K| |discriminate K].
  destruct (fdone CABLE_AT [(FINE, Press BOTH)]) as [l|] eqn:D; [|discriminate K']. destruct l as [|x [|]]; [discriminate K'| |discriminate K'].
  destruct (mo_sent m) as [|p [|]] eqn:S; [discriminate K| |discriminate K]. apply andb_true_iff in K as [K1 K2]. apply Nat.eqb_eq in K1. apply bytes_eqb_eq in K2.
  exists F, m, x, w, p. split; [|split; [rewrite S; left; reflexivity|auto]].
  apply (second_does [(FINE, Press BOTH)] CABLE_BEFORE CABLE_DONE CABLE_AT [(F, m)] w [x]); [constructor; [left; reflexivity|constructor]|exact cable_before|exact L|exact D].
Qed.
Lemma cable_unforged : no_forgery CABLE_SEEN.
Proof. intros pre c post data E C. apply (unforged_dec CABLE_SEEN []) with (c := c) (post := post); [vm_compute; reflexivity|exact E|exact C]. Qed.
Lemma cable_described : option_map (fun x => description (snd x)) (session_of INS_SIGN CABLE_SEEN) = Some (tx_of SIGN_ALL).
Proof. vm_compute. reflexivity. Qed.
Lemma cable_boxes : forall a, attested_box toy TOY_KEY CABLE_SEEN a ->
  box_bytes a = n_box_bytes LEDGER_BOX /\ sb_tree a = Some BOX_TREE /\ sb_regs_len a = 0.
Proof.
  intros a A. assert (H : is_sample a = true) by (revert a A; apply attested_all; vm_compute; reflexivity).
  unfold is_sample in H. apply andb_true_iff in H as [H H3]. apply andb_true_iff in H as [H1 H2]. apply bytes_eqb_eq in H1. apply N.eqb_eq in H3.
  destruct (sb_tree a) as [t|]; [|discriminate]. apply bytes_eqb_eq in H2. subst t. auto.
Qed.
Lemma cable_free : collision_free toy TOY_KEY CABLE_SEEN [LEDGER_BOX].
Proof. intros a b A [<-|[]] _. apply cable_boxes. exact A. Qed.
Lemma cable_readable : attested_readable toy TOY_KEY CABLE_SEEN standard.
Proof.
  intros a A. destruct (cable_boxes a A) as (B & T & R). split.
  - split; [exists BOX_TREE; split; [exact T|]|rewrite R; left; reflexivity].
    left. exists (3 :: repeat 5 32). split; [reflexivity|]. split; [reflexivity|right; reflexivity].
  - intros a' A' _. destruct (cable_boxes a' A') as (B' & _). congruence.
Qed.
(** The press that lets this signature out. *)
Lemma cable_approves : exists F m F' a os w outs, fdoes toy toy_ux SECOND_POWER (CABLE_BEFORE ++ [(F, m)]) (CABLE_DONE ++ [(F', (a, os))]) w /\ sound os /\ In (UiApprove, outs) os /\
  responds outs = true /\ is_approval (UiApprove, outs) = true.
Proof.
  assert (K : match flive CABLE_AT [(FINE, Press BOTH)] with Some ([_], _) => true | _ => false end = true) by (vm_compute; reflexivity).
  assert (K' : match fdone CABLE_AT [(FINE, Press BOTH)] with
               | Some [(_, (_, [(UiApprove, outs)]))] => soundb [(UiApprove, outs)] && responds outs && is_approval (UiApprove, outs)
               | _ => false
               end = true) by (vm_compute; reflexivity).
  destruct (flive CABLE_AT [(FINE, Press BOTH)]) as [[tr w]|] eqn:L; [|discriminate K]. destruct tr as [|[F m] [|]]; [discriminate K| |discriminate K].
  destruct (fdone CABLE_AT [(FINE, Press BOTH)]) as [l|] eqn:D; [|discriminate K']. destruct l as [|[F' [a os]] [|]]; [discriminate K'| |].
  2:{ destruct os as [|[[] ?] [|]]; discriminate K'. }
  destruct os as [|[e outs] os]; [discriminate K'|]. destruct e; try discriminate K'. destruct os; [|discriminate K'].
  apply andb_true_iff in K' as [K' K3]. apply andb_true_iff in K' as [K1 K2].
  exists F, m, F', a, [(UiApprove, outs)], w, outs. split; [|split; [apply soundb_ok; exact K1|split; [left; reflexivity|auto]]].
  apply (second_does [(FINE, Press BOTH)] CABLE_BEFORE CABLE_DONE CABLE_AT [(F, m)] w [(F', (a, [(UiApprove, outs)]))]); [constructor; [left; reflexivity|constructor]|exact cable_before|exact L|exact D].
Qed.
