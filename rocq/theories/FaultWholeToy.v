(** The toy device at the cable, with failing calls, for the examples. *)
From Coq Require Import String.
From Verif Require Import Lib Env UiFlow P2pkOp App SpecTx SpecTrace Toy ReadApp SpecRaw Wire SpecWire Restart Fault LowApp SpecFault
  Buttons SpecButtons ButtonToy Whole SpecWhole WholeAll WholeToy FaultButtons FaultToy FaultWhole SpecFaultWhole.

Fixpoint flive (w : whole) (acts : list (faults * action)) : option (list (faults * moment) * whole) :=
  match acts with
  | [] => Some ([], w)
  | (F, a) :: t =>
      let '(w1, l) := fwhole_step toy F toy_ux w (done_by a) in
      if action_okb a && quiet l then
        match flive w1 t with Some (tr, w2) => Some ((F, mk_moment (done_by a) (packets l) (displayed (wh_dev w1))) :: tr, w2) | None => None end
      else None
  end.
Lemma flive_goes : forall acts w0 tr w tr' w', Forall (fun x => mild (fst x)) acts -> fgoes_on toy toy_ux w0 tr w -> flive w acts = Some (tr', w') -> fgoes_on toy toy_ux w0 (tr ++ tr') w'.
Proof.
  induction acts as [|[F a] acts IH]; intros w0 tr w tr' w' M H L; cbn [flive] in L.
  - assert (tr' = []) as -> by congruence. assert (w' = w) as -> by congruence. rewrite app_nil_r. exact H.
  - destruct (fwhole_step toy F toy_ux w (done_by a)) as [w1 l] eqn:Hs. destruct (action_okb a && quiet l) eqn:B; [|discriminate L]. apply andb_true_iff in B as [B1 B2].
    destruct (flive w1 acts) as [[tr2 w2]|] eqn:L2; [|discriminate L]. assert (w' = w2) as -> by congruence. set (m := mk_moment _ _ _) in L. assert (tr' = (F, m) :: tr2) as -> by congruence.
    replace (tr ++ (F, m) :: tr2) with ((tr ++ [(F, m)]) ++ tr2) by (rewrite <- app_assoc; reflexivity). pose proof (Forall_inv M) as M1. cbn [fst] in M1. destruct (mild_ok _ M1) as [M2 M3].
    eapply IH; [exact (Forall_inv_tail M)| |exact L2]. subst m.
    eapply fgoes_on_more; [exact H|exact M2|exact M3|apply done_ok, action_okb_ok; exact B1|exact Hs|apply (quiet_ok _ _ B2); auto|apply (quiet_ok _ _ B2); auto].
Qed.
Definition flived (w : whole) (acts : list (faults * action)) : list (faults * moment) * whole := match flive w acts with Some x => x | None => ([], w) end.
Lemma flived_goes : forall w acts, Forall (fun x => mild (fst x)) acts -> fgoes_on toy toy_ux w (fst (flived w acts)) (snd (flived w acts)).
Proof.
  intros w acts M. unfold flived. destruct (flive w acts) as [[tr w']|] eqn:L; [|constructor]. exact (flive_goes acts w [] w tr w' M (fgoes_on_start _ _ _) L).
Qed.
