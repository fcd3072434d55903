(** The device of Toy.v operated by its buttons, with failing calls, for the examples. *)
From Coq Require Import String.
From Verif Require Import Lib Env UiFlow P2pkOp App SpecTx SpecTrace SpecScreen Toy Fault LowApp SpecFault FaultProofs Buttons SpecButtons ButtonToy FaultButtons SpecFaultRun.

(** Nothing fails; every hash computation fails; the last step of a signature fails. *)
Definition FINE : faults := quiet_faults (fun _ _ => None).
Definition HASHES_FAIL : faults :=
  mk_faults false (fun _ _ _ => Some [1; 2; 3]) (fun _ _ => false) (fun _ => true) false false (fun _ => None) false (fun _ _ => None) (f_stack FINE).
Definition FINISH_FAILS : faults :=
  mk_faults false (fun _ _ _ => None) (fun _ _ => false) (fun _ => false) false false (fun _ => None) true (fun _ _ => None) (f_stack FINE).
Definition mild (F : faults) : Prop := F = FINE \/ F = HASHES_FAIL \/ F = FINISH_FAILS.
Lemma mild_ok : forall F, mild F -> stack_ok F /\ hmac_works F.
Proof. intros F [-> |[-> | ->]]; (split; [apply (quiet_stack (fun _ _ => None))|intros k l; reflexivity]). Qed.

Fixpoint fdrive (d : device) (acts : list (faults * action)) : option (list fdeed * device) :=
  match acts with
  | [] => Some ([], d)
  | (F, a) :: t =>
      let '(d', os) := foperate toy F toy_ux d a in
      if action_okb a && soundb os then
        match fdrive d' t with Some (l, d2) => Some ((F, (a, os)) :: l, d2) | None => None end
      else None
  end.
Lemma fdrive_operated : forall acts l d l' d', Forall (fun x => mild (fst x)) acts -> foperated toy toy_ux TOY_KEY l d -> fdrive d acts = Some (l', d') ->
  foperated toy toy_ux TOY_KEY (l ++ l') d'.
Proof.
  intros acts l d l' d' Fm. revert l d l' d'. induction Fm as [|[F a] acts M Fm IH]; intros l d l' d' H D; cbn [fdrive] in D.
  - injection D as <- <-. rewrite app_nil_r. exact H.
  - destruct (foperate toy F toy_ux d a) as [d1 os] eqn:Op. destruct (action_okb a && soundb os) eqn:B; [|discriminate]. apply andb_true_iff in B as [B1 B2].
    destruct (fdrive d1 acts) as [[l2 d2]|] eqn:D2; [|discriminate]. injection D as <- <-. replace (l ++ (F, (a, os)) :: l2) with ((l ++ [(F, (a, os))]) ++ l2) by (rewrite <- app_assoc; reflexivity).
    destruct (mild_ok _ M) as [M1 M2]. eapply IH; [|exact D2]. eapply foperated_more; [exact H|exact M1|exact M2| |exact Op|apply soundb_ok; exact B2].
    destruct a as [e|b]; [|exact I]. cbn [action_okb] in B1. apply andb_true_iff in B1 as [B1 B3]. split; [apply Bool.negb_true_iff; exact B1|apply event_okb_ok; exact B3].
Qed.
Definition ffrom (acts : list (faults * action)) : list fdeed * device := match fdrive (switched_on TOY_KEY) acts with Some x => x | None => ([], switched_on TOY_KEY) end.
Definition fdeeds (acts : list (faults * action)) : list fdeed := fst (ffrom acts).
Definition fafter (acts : list (faults * action)) : device := snd (ffrom acts).
Lemma fdeeds_operated : forall acts, Forall (fun x => mild (fst x)) acts -> foperated toy toy_ux TOY_KEY (fdeeds acts) (fafter acts).
Proof.
  intros acts M. unfold fdeeds, fafter, ffrom. destruct (fdrive (switched_on TOY_KEY) acts) as [[l d]|] eqn:D; cbn [fst snd]; [|apply foperated_start].
  exact (fdrive_operated acts [] _ _ _ M (foperated_start _ _ _) D).
Qed.
Lemma mild_with : forall F (acts : list action), mild F -> Forall (fun x => mild (fst x)) (map (pair F) acts).
Proof. intros F acts M. apply Forall_forall. intros x H. apply in_map_iff in H as (a & <- & _). exact M. Qed.
