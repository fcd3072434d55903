(** From every open question that still heeds the buttons, presses lead to Reject, whatever pages cannot be computed. *)
From Coq Require Import String.
From Verif Require Import Lib Env TxTable UiFlow P2pkOp App SpecTx SpecTrace SpecApdu SpecScreen SpecSign SpecDispatch Moves SignInput TraceScreen TraceShow TraceUb
  DispatchProofs RulesProofs SessionProofs RequestProofs StartAccept Buttons SpecButtons ButtonProofs ButtonRun.

#[local] Arguments N.eqb : simpl never.
#[local] Arguments N.ltb : simpl never.
#[local] Arguments N.leb : simpl never.
#[local] Arguments N.sub : simpl never.
#[local] Arguments blen : simpl never.
#[local] Arguments num : simpl never.
#[local] Arguments slice : simpl never.

(** The cards on one side of the position can all be displayed: they were, on the way. *)
Definition low (cs : list (option card)) (n : nat) : Prop := forall m, (m <= n)%nat -> nth_error cs m <> Some None.
Definition high (cs : list (option card)) (n : nat) : Prop := forall m, (n <= m)%nat -> nth_error cs m <> Some None.

Lemma flank_turn : forall U cs b x y, turn U cs b x y -> valid U cs y -> low cs (fst x) \/ high cs (fst x) -> low cs (fst y) \/ high cs (fst y).
Proof.
  intros U cs b x y T (c & C & _) H.
  assert (Here : nth_error cs (fst y) <> Some None) by congruence.
  inversion T; subst; cbn [fst] in *; try exact H.
  - destruct H as [H|H]; [left|right; intros m L; apply H; lia]. intros m L. destruct (Nat.eq_dec m (S n)) as [-> |]; [exact Here|apply H; lia].
  - left. intros m L. replace m with 0%nat by lia. exact Here.
  - destruct H as [H|H]; [left; intros m L; apply H; lia|right]. intros m L. destruct (Nat.eq_dec m n) as [-> |]; [exact Here|apply H; lia].
  - right. intros m L. destruct (Nat.eq_dec m n) as [-> |]; [exact Here|]. rewrite (proj2 (nth_error_None cs m)) by lia. discriminate.
Qed.
Lemma flank : forall U cs bs y, valid U cs (O, O) -> turned U cs bs (O, O) y -> low cs (fst y) \/ high cs (fst y).
Proof.
  intros U cs bs y (c & C & _) T. remember (O, O) as x eqn:Ex. induction T as [x|b l x y z T IH Tn V]; subst.
  - left. intros m L. cbn [fst] in *. replace m with 0%nat by lia. congruence.
  - eapply flank_turn; [exact Tn|exact V|apply IH; [reflexivity|exact C]].
Qed.

(** How far the first card is. *)
Lemma back_step : forall U cs x y, valid U cs x -> valid U cs y -> turn U cs LEFT x y -> x <> (O, O) -> (w U cs (fst y) + snd y < w U cs (fst x) + snd x)%nat.
Proof.
  intros U cs x y _ (c & C & L) T Ne. inversion T; subst; cbn [fst snd] in *; [lia| |congruence]. rewrite (w_next U _ _ _ C). lia.
Qed.

Section Out.
  Variables (E : env) (U : ux) (key : bytes) (q : event) (k : ui_kind) (f : flow) (pages : list page) (pre : list (option card)).
  Hypothesis Henv : env_ok E.
  Let cs := cards f pages.
  Hypothesis Ec : cs = pre ++ [Some C_APPROVE; Some C_REJECT].
  Definition walked (l : list deed) (j : nat) : Prop := exists l2 d2, operated E U key (l ++ l2) d2 /\ (length l2 <= j)%nat /\
    Forall (fun x => exists b, fst x = Press b /\ b <> BOTH /\ answered x = false) l2 /\ displayed d2 = Some (C_REJECT, O).

  Lemma end_nth : forall m, (S m = length cs)%nat -> nth_error cs m = Some (Some C_REJECT).
  Proof. intros m L. rewrite Ec in *. rewrite app_length in L. cbn [length] in L. rewrite nth_error_app2 by lia. replace (m - length pre)%nat with 1%nat by lia. reflexivity. Qed.

  (** A press that leads on, and what follows it. *)
  Lemma pass : forall l d i n p b d' os j, operated E U key l d -> on_screen (happened l) = Some (q, k, f, pages) -> press E U d b = (d', os) -> b <> BOTH ->
    moved U f pages b d d' n p os ->
    (forall l' i' n' p', operated E U key l' d' -> on_screen (happened l') = Some (q, k, f, pages) -> dv_at d' = P_AT i' p' -> standing U f pages d' i' n' p' ->
      turn U cs b (n, p) (n', p') -> walked l' j) -> standing U f pages d i n p -> walked l (S j).
  Proof.
    intros l d i n p b d' os j H Ho P Nb [(i' & n' & p' & A' & St' & Tn) Q] K St.
    assert (H' : operated E U key (l ++ [(Press b, os)]) d') by (eapply operated_more; [exact H|exact I|exact P|apply quiet_sound; exact Q]).
    assert (Ho' : on_screen (happened (l ++ [(Press b, os)])) = Some (q, k, f, pages)) by (rewrite happened_snoc, quiet_screen by exact Q; exact Ho).
    destruct (K _ _ _ _ H' Ho' A' St' Tn) as (l2 & d2 & H2 & L2 & F2 & D2). exists ((Press b, os) :: l2), d2.
    rewrite <- app_assoc in H2. split; [exact H2|]. split; [cbn [length]; lia|]. split; [|exact D2]. constructor; [|exact F2]. exists b. split; [reflexivity|]. split; [exact Nb|].
    apply quiet_answered. exact Q.
  Qed.
  Lemma there : forall l d i n p j, operated E U key l d -> dv_at d = P_AT i p -> standing U f pages d i n p -> nth_error cs n = Some (Some C_REJECT) -> walked l j.
  Proof.
    intros l d i n p j H A St Hn. assert (p = 0%nat) as -> by (destruct St as [_ (c & C & _ & L)]; fold cs in C; rewrite Hn in C; injection C as <-; cbn [extra] in L; lia).
    exists [], d. rewrite app_nil_r. split; [exact H|]. split; [cbn [length]; lia|]. split; [constructor|]. eapply displayed_standing; eauto.
  Qed.

  Lemma walk_left : forall j l d i n p, operated E U key l d -> on_screen (happened l) = Some (q, k, f, pages) -> dv_at d = P_AT i p -> standing U f pages d i n p ->
    low cs n -> (w U cs n + p < j)%nat -> walked l j.
  Proof.
    induction j as [|j IH]; intros l d i n p H Ho A St Lo G; [lia|]. destruct (press E U d LEFT) as [d' os] eqn:P. pose proof (operated_history _ _ _ _ _ H) as Hh.
    destruct (question_turn _ _ _ _ _ _ _ _ _ _ _ _ _ _ _ Henv Hh Ho A St P ltac:(discriminate)) as [M|(y & T & Y)].
    2: { exfalso. fold cs in T, Y. inversion T; subst; cbn [fst] in *; [revert Y; apply Lo; lia|revert Y; apply Lo; lia|]. rewrite end_nth in Y by assumption. discriminate Y. }
    eapply pass; [exact H|exact Ho|exact P|discriminate|exact M| |exact St]. intros l' i' n' p' H' Ho' A' St' Tn.
    pose proof (standing_valid _ _ _ _ _ _ _ St) as V. pose proof (standing_valid _ _ _ _ _ _ _ St') as V'. fold cs in V, V'.
    assert (Cases : (n, p) = (O, O) \/ (n, p) <> (O, O)) by (destruct n, p; [left; reflexivity|right; discriminate..]). destruct Cases as [K|K].
    - injection K as -> ->. eapply there; [exact H'|exact A'|exact St'|]. apply end_nth. inversion Tn; subst; assumption.
    - pose proof (back_step _ _ _ _ V V' Tn K) as Gs. cbn [fst snd] in Gs. eapply IH; [exact H'|exact Ho'|exact A'|exact St'| |lia].
      intros m L. apply Lo. inversion Tn; subst; lia || (destruct K; reflexivity).
  Qed.
  Lemma walk_on : forall j l d i n p, operated E U key l d -> on_screen (happened l) = Some (q, k, f, pages) -> dv_at d = P_AT i p -> standing U f pages d i n p ->
    high cs n -> (gap U cs (S (length pre)) (n, p) <= j)%nat -> walked l j.
  Proof.
    assert (Len : length cs = S (S (length pre))) by (rewrite Ec, app_length; cbn [length]; lia).
    induction j as [|j IH]; intros l d i n p H Ho A St Hi G; (destruct (Nat.eq_dec n (S (length pre))) as [-> |Ne]; [eapply there; [exact H|exact A|exact St|apply end_nth; lia]|]).
    all: destruct (press E U d RIGHT) as [d' os] eqn:P; pose proof (operated_history _ _ _ _ _ H) as Hh; pose proof (standing_valid _ _ _ _ _ _ _ St) as V; fold cs in V.
    all: assert (Ln : (n < S (length pre))%nat) by (destruct V as (c & C & _); cbn [fst] in C; assert (n < length cs)%nat by (apply nth_error_Some; congruence); lia).
    all: destruct (question_turn _ _ _ _ _ _ _ _ _ _ _ _ _ _ _ Henv Hh Ho A St P ltac:(discriminate)) as [M|(y & T & Y)].
    2, 4: exfalso; fold cs in T, Y; inversion T; subst; cbn [fst] in *; [revert Y; apply Hi; lia|revert Y; apply Hi; lia|lia].
    1: destruct M as [(i' & n' & p' & A' & St' & Tn) Q].
    1: pose proof (gap_step _ _ (S (length pre)) _ _ V (standing_valid _ _ _ _ _ _ _ St') Tn ltac:(lia) Ne) as Gs; lia.
    eapply pass; [exact H|exact Ho|exact P|discriminate|exact M| |exact St]. intros l' i' n' p' H' Ho' A' St' Tn.
    pose proof (gap_step _ _ (S (length pre)) _ _ V (standing_valid _ _ _ _ _ _ _ St') Tn ltac:(lia) Ne) as Gs. fold cs in Gs.
    eapply IH; [exact H'|exact Ho'|exact A'|exact St'| |lia]. intros m L. apply Hi. inversion Tn; subst; lia.
  Qed.
End Out.

Lemma to_reject : forall E U key l l' d k f pages, env_ok E -> put l k f pages -> still l' -> operated E U key (l ++ l') d -> ~ dead E U d ->
  exists l2 d2, operated E U key ((l ++ l') ++ l2) d2 /\ (length l2 <= parts U (cards f pages))%nat /\
    Forall (fun x => exists b, fst x = Press b /\ b <> BOTH /\ answered x = false) l2 /\ displayed d2 = Some (C_REJECT, O).
Proof.
  intros E U key l l' d k f pages Henv Hput Hs H Nd.
  destruct (question_run _ _ _ _ _ _ _ _ _ Henv Hput H Hs) as ((e0 & Ho) & i & n & p & bs0 & St & Tu & Pl).
  destruct Pl as [[Pl _]|(Pl & _)]; [|exfalso; apply Nd; eapply dead_place; eauto].
  destruct (cards_end _ _ _ _ _ _ _ _ Henv (operated_history _ _ _ _ _ H) Ho) as (pre & Ec & _ & _).
  pose proof (standing_valid _ _ _ _ _ _ _ St) as (c & C & L). cbn [fst snd] in C, L.
  assert (Len : length (cards f pages) = S (S (length pre))) by (rewrite Ec, app_length; cbn [length]; lia).
  assert (Ln : (n < length (cards f pages))%nat) by (apply nth_error_Some; congruence).
  assert (V0 : valid U (cards f pages) (O, O)).
  { destruct (operated_prefix _ _ _ _ _ _ H) as [d0 H0]. destruct (put_start _ _ _ _ _ _ _ _ Henv H0 Hput) as (_ & _ & K). eapply standing_valid. exact K. }
  destruct (flank _ _ _ _ V0 Tu) as [Lo|Hi]; cbn [fst] in *.
  - eapply walk_left; [exact Henv|exact Ec|exact H|exact Ho|exact Pl|exact St|exact Lo|].
    pose proof (w_next U _ _ _ C) as Wn. pose proof (w_le U (cards f pages) (S n) (length (cards f pages)) ltac:(lia)) as K. rewrite (w_all U _ (length (cards f pages))) in K by lia. lia.
  - eapply walk_on; [exact Henv|exact Ec|exact H|exact Ho|exact Pl|exact St|exact Hi|]. apply gap_bound. lia.
Qed.

(** And Reject ends the question. *)
Lemma way_out : forall E U key l l' d k f pages, env_ok E -> put l k f pages -> still l' -> operated E U key (l ++ l') d -> ~ dead E U d ->
  exists l2 d2, operated E U key ((l ++ l') ++ l2 ++ [(Press BOTH, [(UiReject, [OResp [] SW_DENY])])]) d2 /\ (length l2 <= parts U (cards f pages))%nat /\
    Forall (fun x => exists b, fst x = Press b /\ b <> BOTH /\ answered x = false) l2 /\
    on_screen (happened ((l ++ l') ++ l2 ++ [(Press BOTH, [(UiReject, [OResp [] SW_DENY])])])) = None /\ exists x, displayed d2 = Some x.
Proof.
  intros E U key l l' d k f pages Henv Hput Hs H Nd. destruct (to_reject _ _ _ _ _ _ _ _ _ Henv Hput Hs H Nd) as (l2 & d1 & H1 & L & F & Dp).
  assert (Hs2 : still (l' ++ l2)).
  { apply Forall_app. split; [exact Hs|]. eapply Forall_impl; [|exact F]. intros x (b & -> & _ & K). exact K. }
  rewrite <- app_assoc in H1. destruct (acts _ _ _ _ _ _ _ _ _ Henv Hput Hs2 H1) as [_ K]. specialize (K _ Dp).
  destruct (press E U d1 BOTH) as [d2 os] eqn:P. cbn [snd] in K. subst os.
  assert (H2 : operated E U key ((l ++ l' ++ l2) ++ [(Press BOTH, [(UiReject, [OResp [] SW_DENY])])]) d2).
  { eapply operated_more; [exact H1|exact I|exact P|]. constructor; [|constructor]. cbn [snd]. split; intros [X|[]]; discriminate X. }
  assert (Eq : (l ++ l' ++ l2) ++ [(Press BOTH, [(UiReject, [OResp [] SW_DENY])])] = (l ++ l') ++ l2 ++ [(Press BOTH, [(UiReject, [OResp [] SW_DENY])])]) by (rewrite <- !app_assoc; reflexivity).
  assert (Nq : on_screen (happened ((l ++ l' ++ l2) ++ [(Press BOTH, [(UiReject, [OResp [] SW_DENY])])])) = None) by (rewrite happened_snoc, on_screen_snoc; reflexivity).
  exists l2, d2. split; [exact (eq_ind _ (fun t => operated E U key t d2) H2 _ Eq)|]. split; [exact L|]. split; [exact F|]. split; [exact (eq_ind _ (fun t => on_screen (happened t) = None) Nq _ Eq)|].
  destruct (displayed d2) as [x|] eqn:D; [eauto|]. exfalso. destruct (shown_or_off _ _ _ _ _ Henv H2 D) as [Off _].
  assert (A : dv_at d2 = P_AT 0 0); [|congruence].
  destruct (press_home _ _ _ _ _ _ _ P eq_refl) as [A|[A _]]; [exact A|discriminate A].
Qed.
