(** The device of Toy.v operated by its buttons, for the examples. *)
From Coq Require Import String.
From Verif Require Import Lib Env UiFlow P2pkOp App SpecTx SpecTrace SpecApdu SpecScreen SpecSign Toy Buttons SpecButtons ButtonProofs.

(** Eight characters to a part. *)
Definition toy_ux : ux := mk_ux (fun _ b => Nat.div (length b) 8) false.
Definition action_okb (a : action) : bool := match a with Host e => negb (by_user e) && event_okb e | Press _ => true end.
Definition soundb (os : list obs) : bool := forallb (fun o => negb (existsb (fun x => match x with ODiverge | OUb => true | _ => false end) (snd o))) os.
Fixpoint drive (d : device) (acts : list action) : option (list deed * device) :=
  match acts with
  | [] => Some ([], d)
  | a :: t =>
      let '(d', os) := operate toy toy_ux d a in
      if action_okb a && soundb os then
        match drive d' t with Some (l, d2) => Some ((a, os) :: l, d2) | None => None end
      else None
  end.
Lemma soundb_ok : forall os, soundb os = true -> sound os.
Proof.
  intros os H. unfold soundb in H. rewrite forallb_forall in H. apply Forall_forall. intros o Hin. specialize (H _ Hin).
  apply Bool.negb_true_iff in H. split; intros K; assert (X : existsb (fun x => match x with ODiverge | OUb => true | _ => false end) (snd o) = true) by (apply existsb_exists; eexists; split; [exact K|reflexivity]); congruence.
Qed.
Lemma drive_operated : forall acts l d l' d', operated toy toy_ux TOY_KEY l d -> drive d acts = Some (l', d') -> operated toy toy_ux TOY_KEY (l ++ l') d'.
Proof.
  induction acts as [|a acts IH]; intros l d l' d' H D; cbn [drive] in D.
  - injection D as <- <-. rewrite app_nil_r. exact H.
  - destruct (operate toy toy_ux d a) as [d1 os] eqn:Op. destruct (action_okb a && soundb os) eqn:B; [|discriminate]. apply andb_true_iff in B as [B1 B2].
    destruct (drive d1 acts) as [[l2 d2]|] eqn:D2; [|discriminate]. injection D as <- <-. replace (l ++ (a, os) :: l2) with ((l ++ [(a, os)]) ++ l2) by (rewrite <- app_assoc; reflexivity).
    eapply IH; [|exact D2]. eapply operated_more; [exact H| |exact Op|apply soundb_ok; exact B2].
    destruct a as [e|b]; [|exact I]. cbn [action_okb] in B1. apply andb_true_iff in B1 as [B1 B3]. split; [apply Bool.negb_true_iff; exact B1|apply event_okb_ok; exact B3].
Qed.

Definition from (d : device) (acts : list action) : list deed * device := match drive d acts with Some x => x | None => ([], d) end.
Definition deeds (acts : list action) : list deed := fst (from (switched_on TOY_KEY) acts).
Definition after (acts : list action) : device := snd (from (switched_on TOY_KEY) acts).
Lemma deeds_operated : forall acts, operated toy toy_ux TOY_KEY (deeds acts) (after acts).
Proof.
  intros acts. unfold deeds, after, from. destruct (drive (switched_on TOY_KEY) acts) as [[l d]|] eqn:D; cbn [fst snd]; [|apply operated_start].
  exact (drive_operated acts [] _ _ _ (operated_start _ _ _) D).
Qed.
(** [b] after [a]. *)
Definition then_deeds (a b : list action) : list deed := fst (from (after a) b).
Definition then_after (a b : list action) : device := snd (from (after a) b).
Lemma then_operated : forall a b, operated toy toy_ux TOY_KEY (deeds a ++ then_deeds a b) (then_after a b).
Proof.
  intros a b. unfold then_deeds, then_after, from. destruct (drive (after a) b) as [[l d]|] eqn:D; cbn [fst snd].
  - exact (drive_operated b _ _ _ _ (deeds_operated a) D).
  - rewrite app_nil_r. apply deeds_operated.
Qed.

(** The question the last deed put. *)
Definition asking (l : list deed) : option (ui_kind * flow * list page) :=
  match rev l with (Host _, [(_, [OShow k f pages])]) :: _ => Some (k, f, pages) | _ => None end.
Lemma asking_put : forall E U key l d k f pages, operated E U key l d -> asking l = Some (k, f, pages) -> put l k f pages.
Proof.
  intros E U key l d k f pages H A. unfold asking in A. destruct l as [|[a os] l] using rev_ind; [discriminate|]. rewrite rev_app_distr in A. cbn [rev List.app] in A.
  destruct a as [e|]; [|discriminate]. destruct os as [|[e' outs] [|]]; try discriminate; [|destruct outs as [|[] [|]]; discriminate].
  apply operated_last in H as (d0 & _ & _ & Op & _). cbn [operate] in Op. apply receive_shape in Op as [(_ & K & _)|(o & _ & K & _)]; [discriminate|].
  assert (e' = e) by congruence. subst e'. destruct outs as [|[] [|]]; try discriminate. exists l, e. injection A as -> -> ->. reflexivity.
Qed.
Definition stillb (l : list deed) : bool := forallb (fun x => match fst x with Press _ => negb (answered x) | Host _ => true end) l.
Lemma stillb_ok : forall l, stillb l = true -> still l.
Proof.
  intros l H. unfold stillb in H. rewrite forallb_forall in H. apply Forall_forall. intros x Hin. specialize (H _ Hin). destruct (fst x); [exact I|]. apply Bool.negb_true_iff. exact H.
Qed.

(** Commands from the host, and every approval by hand: left twice from the first card is
    the approval card, and the path of a signing request is approved at its second part. *)
Definition by_hand (evs : list event) : list action :=
  flat_map (fun e => match e with UiApprove => [Press LEFT; Press LEFT; Press BOTH] | UiPathBoth => [Press RIGHT; Press BOTH] | _ => [Host e] end) evs.
(** Up to the final question of a signing session; a key request. *)
Definition TO_CONFIRM : list action := by_hand (removelast SIGN_ALL).
Definition TO_KEY : list action := [Host (cmd_of INS_KEY 1 0 (path_bytes ACCOUNT0))].
(** Key requests with a path too long to write out, then away from the first card and back. *)
Definition TOO_LONG : list action := [Host (cmd_of INS_KEY 1 0 (path_bytes (ACCOUNT0 ++ repeat (H' 2000000000) 6))); Press RIGHT; Press LEFT].
Definition rights (n : nat) : list action := repeat (Press RIGHT) n.

(** A question of the toy device and what was done since. *)
Lemma toy_question : forall a b k f pages, asking (deeds a) = Some (k, f, pages) -> stillb (then_deeds a b) = true ->
  put (deeds a) k f pages /\ still (then_deeds a b) /\ operated toy toy_ux TOY_KEY (deeds a ++ then_deeds a b) (then_after a b).
Proof. intros a b k f pages A S. split; [eapply asking_put; [apply deeds_operated|exact A]|]. split; [apply stillb_ok; exact S|apply then_operated]. Qed.

(** What was displayed in between. *)
Lemma drive_firstn : forall acts d l d' n, drive d acts = Some (l, d') -> exists d1, drive d (firstn n acts) = Some (firstn n l, d1).
Proof.
  induction acts as [|a acts IH]; intros d l d' n D.
  - cbn [drive] in D. injection D as <- <-. exists d. rewrite !firstn_nil. reflexivity.
  - destruct n as [|n]; [exists d; reflexivity|]. cbn [drive] in D. cbn [firstn drive]. destruct (operate toy toy_ux d a) as [d1 os]. destruct (action_okb a && soundb os); [|discriminate].
    destruct (drive d1 acts) as [[l2 d2]|] eqn:D2; [|discriminate]. injection D as <- <-. destruct (IH _ _ _ n D2) as (d3 & ->). exists d3. reflexivity.
Qed.
Lemma drive_length : forall acts d l d', drive d acts = Some (l, d') -> length l = length acts.
Proof.
  induction acts as [|a acts IH]; intros d l d' D; cbn [drive] in D; [injection D as <- <-; reflexivity|].
  destruct (operate toy toy_ux d a) as [d1 os]. destruct (action_okb a && soundb os); [|discriminate].
  destruct (drive d1 acts) as [[l2 d2]|] eqn:D2; [|discriminate]. injection D as <- <-. cbn [length]. rewrite (IH _ _ _ D2). reflexivity.
Qed.
Lemma toy_seen : forall a b c p, seen toy toy_ux TOY_KEY (deeds a) (then_deeds a b) c p -> drive (after a) b <> None ->
  exists n, (n <= length b)%nat /\ displayed (then_after a (firstn n b)) = Some (c, p).
Proof.
  intros a b c p (l1 & l2 & d & E1 & H & Dp) Nn. unfold then_deeds, from in E1. destruct (drive (after a) b) as [[l d']|] eqn:D; [|congruence]. cbn [fst] in E1.
  exists (length l1). split; [rewrite <- (drive_length _ _ _ _ D), E1, app_length; lia|]. destruct (drive_firstn _ _ _ _ (length l1) D) as (d1 & D1).
  rewrite E1, firstn_app, firstn_all, Nat.sub_diag, firstn_O, app_nil_r in D1. unfold then_after, from. rewrite D1. cbn [snd].
  rewrite (operated_det _ _ _ _ _ _ (drive_operated _ _ _ _ _ (deeds_operated a) D1) H) in Dp. exact Dp.
Qed.
