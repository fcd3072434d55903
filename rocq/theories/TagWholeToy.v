(** The toy device at the cable, with cx_hmac_sha256 failing, for the examples. *)
From Coq Require Import String.
From Verif Require Import Lib Env UiFlow P2pkOp App SpecTx SpecTrace Toy ReadApp SpecRaw Wire SpecWire Restart Fault LowApp SpecFault
  Buttons SpecButtons ButtonToy Whole SpecWhole WholeAll WholeToy FaultButtons SpecTags FaultToy TagToy FaultWhole SpecFaultWhole FaultWholeToy SpecTagWhole.

Lemma hlive_goes : forall acts w0 tr w tr' w', hgoes_on toy toy_ux w0 tr w -> flive w (map (pair TAGS_FAIL) acts) = Some (tr', w') -> hgoes_on toy toy_ux w0 (tr ++ tr') w'.
Proof.
  induction acts as [|a acts IH]; intros w0 tr w tr' w' H L; cbn [map flive] in L.
  - assert (tr' = []) as -> by congruence. assert (w' = w) as -> by congruence. rewrite app_nil_r. exact H.
  - destruct (fwhole_step toy TAGS_FAIL toy_ux w (done_by a)) as [w1 l] eqn:Hs. destruct (action_okb a && quiet l) eqn:B; [|discriminate L]. apply andb_true_iff in B as [B1 B2].
    destruct (flive w1 (map (pair TAGS_FAIL) acts)) as [[tr2 w2]|] eqn:L2; [|discriminate L]. assert (w' = w2) as -> by congruence. set (m := mk_moment _ _ _) in L. assert (tr' = (TAGS_FAIL, m) :: tr2) as -> by congruence.
    replace (tr ++ (TAGS_FAIL, m) :: tr2) with ((tr ++ [(TAGS_FAIL, m)]) ++ tr2) by (rewrite <- app_assoc; reflexivity). destruct tags_fail_ok as (M2 & M3 & _).
    eapply IH; [|exact L2]. subst m.
    eapply hgoes_on_more; [exact H|exact M2|exact M3|apply done_ok, action_okb_ok; exact B1|exact Hs|apply (quiet_ok _ _ B2); auto|apply (quiet_ok _ _ B2); auto].
Qed.
Definition hlived (w : whole) (acts : list action) : list (faults * moment) * whole := flived w (map (pair TAGS_FAIL) acts).
Lemma hlived_goes : forall w acts, hgoes_on toy toy_ux w (fst (hlived w acts)) (snd (hlived w acts)).
Proof.
  intros w acts. unfold hlived, flived. destruct (flive w (map (pair TAGS_FAIL) acts)) as [[tr w']|] eqn:L; [|constructor]. exact (hlive_goes acts w [] w tr w' (hgoes_on_start _ _ _) L).
Qed.
