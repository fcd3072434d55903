(** The toy device at the cable and under the finger, for the examples. *)
From Coq Require Import String.
From Verif Require Import Lib Env UiFlow P2pkOp App SpecTx SpecTrace SpecApdu SpecScreen SpecSign SpecAmounts SpecRules SpecScript SpecNode SpecCost Toy RulesToy CostToy ReadApp SpecRaw Wire SpecWire WireProofs Restart
  Buttons SpecButtons ButtonProofs ButtonToy Whole SpecWhole WholeProofs WholeAll.

Definition act_okb (a : act) : bool :=
  match a with Arrives packet r => (blen packet <=? 260) && forallb (fun b => b <? 256) packet && match command_of packet r with e => event_okb e end | Presses _ => true end.
Definition quiet (l : list wire_out) : bool := forallb (fun o => match o with Screen ODiverge | Screen OUb => false | _ => true end) l.
Fixpoint live (w : whole) (acts : list action) : option (list moment * whole) :=
  match acts with
  | [] => Some ([], w)
  | a :: t =>
      let '(w1, l) := whole_step toy toy_ux w (done_by a) in
      if action_okb a && quiet l then
        match live w1 t with Some (tr, w2) => Some (mk_moment (done_by a) (packets l) (displayed (wh_dev w1)) :: tr, w2) | None => None end
      else None
  end.
Lemma action_okb_ok : forall a, action_okb a = true -> action_ok a.
Proof.
  intros [e|b] H; [|exact I]. cbn [action_okb] in H. apply andb_true_iff in H as [B1 B3]. split; [apply Bool.negb_true_iff; exact B1|apply event_okb_ok; exact B3].
Qed.
Lemma quiet_ok : forall l o, quiet l = true -> o = ODiverge \/ o = OUb -> ~ In (Screen o) l.
Proof. intros l o H K Hin. unfold quiet in H. rewrite forallb_forall in H. specialize (H _ Hin). destruct K as [-> | ->]; discriminate H. Qed.
Lemma live_goes : forall acts w0 tr w tr' w', goes_on toy toy_ux w0 tr w -> live w acts = Some (tr', w') -> goes_on toy toy_ux w0 (tr ++ tr') w'.
Proof.
  induction acts as [|a acts IH]; intros w0 tr w tr' w' H L; cbn [live] in L.
  - assert (tr' = []) as -> by congruence. assert (w' = w) as -> by congruence. rewrite app_nil_r. exact H.
  - destruct (whole_step toy toy_ux w (done_by a)) as [w1 l] eqn:Hs. destruct (action_okb a && quiet l) eqn:B; [|discriminate L]. apply andb_true_iff in B as [B1 B2].
    destruct (live w1 acts) as [[tr2 w2]|] eqn:L2; [|discriminate L]. assert (w' = w2) as -> by congruence. set (m := mk_moment _ _ _) in L. assert (tr' = m :: tr2) as -> by congruence.
    replace (tr ++ m :: tr2) with ((tr ++ [m]) ++ tr2) by (rewrite <- app_assoc; reflexivity). eapply IH; [|exact L2]. subst m.
    eapply goes_on_more; [exact H|apply done_ok, action_okb_ok; exact B1|exact Hs|apply (quiet_ok _ _ B2); auto|apply (quiet_ok _ _ B2); auto].
Qed.
Definition lived (w : whole) (acts : list action) : list moment * whole := match live w acts with Some x => x | None => ([], w) end.
Lemma lived_goes : forall w acts, goes_on toy toy_ux w (fst (lived w acts)) (snd (lived w acts)).
Proof.
  intros w acts. unfold lived. destruct (live w acts) as [[tr w']|] eqn:L; [|constructor]. exact (live_goes acts w [] w tr w' (goes_on_start _ _ _) L).
Qed.

(** A first run with another key, cut off in the middle of a signing session with the user in the
    middle of a question; the second run finds its memory, page buffers and I/O buffer. *)
Definition CUT_OFF : list action := by_hand (SIGN_START ++ SIGN_INPUTS) ++ [Host (cmd_of INS_KEY 1 0 (path_bytes ACCOUNT0)); Press RIGHT].
Definition FIRST : list moment * whole := lived (power_on (init []) ([], []) (repeat 7 260) (repeat 9 16)) CUT_OFF.
Definition SECOND_POWER : whole := let w := snd FIRST in power_on (dv_st (wh_dev w)) (dv_page (wh_dev w)) (wh_io w) TOY_KEY.
Definition BEFORE : list moment * whole := lived SECOND_POWER (TO_CONFIRM ++ [Press LEFT; Press LEFT]).
Definition LAST : list moment * whole := lived (snd BEFORE) [Press BOTH].
Definition WHOLE_LIFE : list (bytes * list moment) := [(repeat 9 16, fst FIRST); (TOY_KEY, fst BEFORE ++ fst LAST)].
Lemma first_io : blen (wh_io (snd FIRST)) = 260.
Proof. vm_compute. reflexivity. Qed.
Lemma lived_some : forall w acts x, live w acts = Some x -> lived w acts = x.
Proof. intros w acts x L. unfold lived. rewrite L. reflexivity. Qed.
Lemma run_on : forall acts, live (snd (lived SECOND_POWER acts)) [Press BOTH] <> None ->
  lifetime toy toy_ux [(repeat 9 16, fst FIRST); (TOY_KEY, fst (lived SECOND_POWER acts) ++ fst (lived (snd (lived SECOND_POWER acts)) [Press BOTH]))].
Proof.
  intros acts Nn. set (tr := _ ++ _). change ([(repeat 9 16, fst FIRST); (TOY_KEY, tr)]) with (([] ++ [(repeat 9 16, fst FIRST)]) ++ [(TOY_KEY, tr)]).
  destruct (live (snd (lived SECOND_POWER acts)) [Press BOTH]) as [[tr' w]|] eqn:L; [|contradiction]. unfold tr. rewrite (lived_some _ _ _ L). cbn [fst]. clear tr.
  apply (lifetime_run _ _ _ (dv_st (wh_dev (snd FIRST))) (dv_page (wh_dev (snd FIRST))) (wh_io (snd FIRST)) TOY_KEY _ w); [|exact first_io|exact (live_goes _ _ _ _ _ _ (lived_goes _ _) L)].
  apply (lifetime_run _ _ _ (init []) ([], []) (repeat 7 260) (repeat 9 16) (fst FIRST) (snd FIRST)); [constructor|vm_compute; reflexivity|apply lived_goes].
Qed.
Lemma whole_life : lifetime toy toy_ux WHOLE_LIFE.
Proof. apply run_on. vm_compute. discriminate. Qed.
Lemma live_acts : forall acts w tr w', live w acts = Some (tr, w') -> map mo_act tr = map done_by acts /\ Forall action_ok acts.
Proof.
  induction acts as [|a acts IH]; intros w tr w' L; cbn [live] in L.
  - assert (tr = []) as -> by congruence. split; [reflexivity|constructor].
  - destruct (whole_step toy toy_ux w (done_by a)) as [w1 l] eqn:Hs. destruct (action_okb a && quiet l) eqn:B; [|discriminate L]. apply andb_true_iff in B as [B1 B2].
    destruct (live w1 acts) as [[tr2 w2]|] eqn:L2; [|discriminate L]. set (m := mk_moment _ _ _) in L. assert (tr = m :: tr2) as -> by congruence. destruct (IH _ _ _ L2) as [I1 I2]. cbn [map]. subst m. cbn [mo_act]. split; [f_equal; exact I1|].
    constructor; [apply action_okb_ok; exact B1|exact I2].
Qed.
Lemma drive_acts : forall acts d l d', drive d acts = Some (l, d') -> map fst l = acts.
Proof.
  induction acts as [|a acts IH]; intros d l d' D; cbn [drive] in D; [assert (l = []) as -> by congruence; reflexivity|].
  destruct (operate toy toy_ux d a) as [d1 os]. destruct (action_okb a && soundb os); [|discriminate]. destruct (drive d1 acts) as [[l2 d2]|] eqn:D2; [|discriminate].
  assert (l = (a, os) :: l2) as -> by congruence. cbn [map fst]. f_equal. eapply IH. exact D2.
Qed.
(** The run of SpecButtons that the second run tells of, up to the last press. *)
Definition TOLD : list action := TO_CONFIRM ++ [Press LEFT; Press LEFT].
Lemma before_tells : tells_of toy toy_ux TOY_KEY (fst BEFORE) (deeds TOLD).
Proof.
  destruct (begins_told toy toy_ux WHOLE_LIFE TOY_KEY (fst BEFORE) (fst LAST) toy_ok whole_life (or_intror (or_introl eq_refl))) as (l & d & O & T & _).
  assert (l = deeds TOLD) as <-; [|exact T]. eapply operated_unique; [exact O|apply deeds_operated|]. destruct T as (T & _). rewrite <- T.
  destruct (live SECOND_POWER TOLD) as [[tr w]|] eqn:L; [|assert (K : live SECOND_POWER TOLD <> None) by (vm_compute; discriminate); contradiction].
  assert (E1 : fst BEFORE = tr) by (unfold BEFORE, lived; fold TOLD; rewrite L; reflexivity). rewrite E1.
  destruct (drive (switched_on TOY_KEY) TOLD) as [[l2 d2]|] eqn:D; [|assert (K : drive (switched_on TOY_KEY) TOLD <> None) by (vm_compute; discriminate); contradiction].
  assert (E2 : deeds TOLD = l2) by (unfold deeds, from; rewrite D; reflexivity). rewrite E2, (drive_acts _ _ _ _ D). destruct (live_acts _ _ _ _ L) as [A F].
  rewrite <- map_map with (f := mo_act) (g := understood), A, map_map. clear - F. induction F as [|a acts Ha F IH]; [reflexivity|]. cbn [map]. rewrite (done_understood _ Ha). f_equal. exact IH.
Qed.
Lemma told_unforged : no_forgery (happened (deeds TOLD)).
Proof.
  intros pre c post data E C. assert (H : unforged_b [] (happened (deeds TOLD)) = true) by (vm_compute; reflexivity). exact (unforged_dec _ [] H _ _ _ _ E C).
Qed.
Lemma told_free : collision_free toy TOY_KEY (happened (deeds TOLD)) [LEDGER_BOX].
Proof.
  intros a b A [<-|[]] _. assert (H : is_sample a = true) by (revert a A; apply attested_all; vm_compute; reflexivity).
  unfold is_sample in H. apply andb_true_iff in H as [H _]. apply andb_true_iff in H as [H _]. apply bytes_eqb_eq in H. exact H.
Qed.
(** Keys and addresses, asked for with and without a token, approved by hand after a cut-off run. *)
Definition TOKEN4 : bytes := [0x11; 0x22; 0x33; 0x44].
Definition EXPORTED : list action := by_hand
  [cmd_of INS_KEY 2 0 (path_bytes ACCOUNT0 ++ TOKEN4); UiApprove; cmd_of INS_ADDRESS 1 2 (0 :: path_bytes ADDRESS0 ++ TOKEN4); cmd_of INS_KEY 2 0 (path_bytes ACCOUNT0 ++ TOKEN4);
   cmd_of INS_ADDRESS 1 1 (0x10 :: path_bytes ADDRESS0); UiApprove].
Definition EXPORT_LIFE : list (bytes * list moment) := [(TOY_KEY, fst (lived SECOND_POWER EXPORTED))].
Lemma export_life : lifetime toy toy_ux EXPORT_LIFE.
Proof.
  apply (lifetime_run toy toy_ux [] (dv_st (wh_dev (snd FIRST))) (dv_page (wh_dev (snd FIRST))) (wh_io (snd FIRST)) TOY_KEY _ (snd (lived SECOND_POWER EXPORTED))); [constructor|exact first_io|apply lived_goes].
Qed.
