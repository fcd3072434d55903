(** The device of Toy.v operated by its buttons, with cx_hmac_sha256 failing throughout, for
    the examples. *)
From Coq Require Import String.
From Verif Require Import Lib Env UiFlow P2pkOp App SpecTx SpecTrace SpecScreen Toy Fault LowApp SpecFault FaultProofs Buttons SpecButtons ButtonToy FaultButtons SpecFaultRun SpecTags FaultToy.

(** cx_hmac_sha256 always fails, leaving zeros; nothing else does. *)
Definition TAGS_FAIL : faults := quiet_faults (fun _ _ => Some (repeat 0 32)).
Lemma tags_fail_ok : stack_ok TAGS_FAIL /\ leaves_bytes TAGS_FAIL /\ hmac_failed TAGS_FAIL /\ ~ call_failed TAGS_FAIL.
Proof.
  split; [apply quiet_stack|]. split; [intros k l g H; injection H as <-; split; reflexivity|]. split; [exists [], [], (repeat 0 32); reflexivity|]. apply quiet_calls.
Qed.
Lemma hdrive_operated : forall acts l d l' d', hoperated toy toy_ux TOY_KEY l d -> fdrive d (map (pair TAGS_FAIL) acts) = Some (l', d') ->
  hoperated toy toy_ux TOY_KEY (l ++ l') d'.
Proof.
  induction acts as [|a acts IH]; intros l d l' d' H D; cbn [map fdrive] in D.
  - injection D as <- <-. rewrite app_nil_r. exact H.
  - destruct (foperate toy TAGS_FAIL toy_ux d a) as [d1 os] eqn:Op. destruct (action_okb a && soundb os) eqn:B; [|discriminate]. apply andb_true_iff in B as [B1 B2].
    destruct (fdrive d1 (map (pair TAGS_FAIL) acts)) as [[l2 d2]|] eqn:D2; [|discriminate]. injection D as <- <-. replace (l ++ (TAGS_FAIL, (a, os)) :: l2) with ((l ++ [(TAGS_FAIL, (a, os))]) ++ l2) by (rewrite <- app_assoc; reflexivity).
    destruct tags_fail_ok as (M1 & M2 & _). eapply IH; [|exact D2]. eapply hoperated_more; [exact H|exact M1|exact M2| |exact Op|apply soundb_ok; exact B2].
    destruct a as [e|b]; [|exact I]. cbn [action_okb] in B1. apply andb_true_iff in B1 as [B1 B3]. split; [apply Bool.negb_true_iff; exact B1|apply event_okb_ok; exact B3].
Qed.
Definition hdeeds (acts : list action) : list fdeed := fdeeds (map (pair TAGS_FAIL) acts).
Definition hafter (acts : list action) : device := fafter (map (pair TAGS_FAIL) acts).
Lemma hdeeds_operated : forall acts, hoperated toy toy_ux TOY_KEY (hdeeds acts) (hafter acts).
Proof.
  intros acts. unfold hdeeds, hafter, fdeeds, fafter, ffrom. destruct (fdrive (switched_on TOY_KEY) (map (pair TAGS_FAIL) acts)) as [[l d]|] eqn:D; cbn [fst snd]; [|apply hoperated_start].
  exact (hdrive_operated acts [] _ _ _ (hoperated_start _ _ _) D).
Qed.
(** The same for observations. *)
Fixpoint hplay (st : state) (evs : list event) : option (list (faults * obs) * state) :=
  match evs with
  | [] => Some ([], st)
  | e :: t =>
      let '(st', outs) := fstep toy TAGS_FAIL st e in
      if event_okb e && negb (existsb (fun o => match o with ODiverge => true | _ => false end) outs) then
        match hplay st' t with Some (l, s2) => Some ((TAGS_FAIL, (e, outs)) :: l, s2) | None => None end
      else None
  end.
Lemma hplay_history : forall evs l st l' st', hhistory toy TOY_KEY l st -> hplay st evs = Some (l', st') -> hhistory toy TOY_KEY (l ++ l') st'.
Proof.
  induction evs as [|e evs IH]; intros l st l' st' H D; cbn [hplay] in D.
  - injection D as <- <-. rewrite app_nil_r. exact H.
  - destruct (fstep toy TAGS_FAIL st e) as [s1 outs] eqn:St. destruct (event_okb e && _) eqn:B; [|discriminate]. apply andb_true_iff in B as [B1 B2].
    destruct (hplay s1 evs) as [[l2 s2]|] eqn:D2; [|discriminate]. injection D as <- <-. replace (l ++ (TAGS_FAIL, (e, outs)) :: l2) with ((l ++ [(TAGS_FAIL, (e, outs))]) ++ l2) by (rewrite <- app_assoc; reflexivity).
    destruct tags_fail_ok as (M1 & M2 & _). eapply IH; [|exact D2]. eapply hhistory_step; [exact H|exact M1|exact M2|apply event_okb_ok; exact B1|exact St|].
    intros K. apply Bool.negb_true_iff in B2. assert (existsb (fun o => match o with ODiverge => true | _ => false end) outs = true); [|congruence]. apply existsb_exists. exists ODiverge. split; [exact K|reflexivity].
Qed.
Definition htrace (evs : list event) : list (faults * obs) := match hplay (init TOY_KEY) evs with Some x => fst x | None => [] end.
Definition hfinal (evs : list event) : state := match hplay (init TOY_KEY) evs with Some x => snd x | None => init TOY_KEY end.
Lemma htrace_history : forall evs, hhistory toy TOY_KEY (htrace evs) (hfinal evs).
Proof.
  intros evs. unfold htrace, hfinal. destruct (hplay (init TOY_KEY) evs) as [[l s]|] eqn:D; cbn [fst snd]; [|apply hhistory_start].
  exact (hplay_history evs [] _ _ _ (hhistory_start _ _) D).
Qed.

(** The session of Toy.v with the frame that this device gives. *)
Definition ZERO_FRAME : bytes := firstn 83 FRAME ++ repeat 0 16.
Definition SIGN_ZERO : list event :=
  ATTEST_FRAME ++ SIGN_START ++ firstn 2 SIGN_INPUTS ++ [sign_cmd 0x12 (ZERO_FRAME ++ be_bytes 4 0)] ++ SIGN_OUTPUTS ++ SIGN_CONFIRM ++ [UiApprove].
