(** An accepted command belongs to an open session: the characterisations of accepted
    commands for all histories. *)
From Verif Require Import Lib Gve CodecProofs Env SpecVlq Bip32 ErgoTree Address Schnorr TxTable TxBox InputFrame UiFlow P2pkOp App SpecText SpecTree SpecTrace SpecTx SpecApdu
  SpecScreen SpecRequest SpecDispatch SpecSign SpecRules SpecAccept SpecAttest SpecStart Moves SignInv SignInput SignRest TraceSign TraceAttest
  TraceScreen TraceShow TraceUb FlowProofs DispatchProofs RequestProofs SessionProofs AttestProofs AcceptInput AcceptFrame AcceptOutput AcceptProofs AttestAccept StartAccept.

#[local] Arguments N.eqb : simpl never.
#[local] Arguments N.ltb : simpl never.
#[local] Arguments N.leb : simpl never.
#[local] Arguments N.sub : simpl never.
#[local] Arguments blen : simpl never.
#[local] Arguments num : simpl never.
#[local] Arguments slice : simpl never.

Definition ctx_kind (c : ctx) : N := match c with X_ATTEST _ => INS_ATTEST | X_SIGN _ => INS_SIGN | _ => 0 end.

(** A context of attestation or signing appears only with a start. *)
Lemma context_born : forall E st e st' outs ins, ins = INS_ATTEST \/ ins = INS_SIGN -> move E st e st' outs -> ~ In ODiverge outs ->
  ctx_kind (st_ctx st') = ins -> is_start ins (e, outs) = true \/ ctx_kind (st_ctx st) = ins.
Proof.
  intros E st e st' outs ins Hi M D K.
  inversion M; subst; try (exfalso; apply D; left; reflexivity);
    try (right; reflexivity); try (left; reflexivity);
    try (exfalso; destruct Hi as [Hi|Hi]; discriminate Hi);
    try (match goal with X : st_ctx st = _ |- _ => right; rewrite X; reflexivity end);
    try (match goal with b : bool |- _ => destruct b end;
         first [match goal with X : st_ctx st = _ |- _ => right; rewrite X; reflexivity end | exfalso; destruct Hi as [Hi|Hi]; discriminate Hi]).
Qed.
(** A context needs a start after any point where there is none. *)
Lemma no_context : forall E key tr1 st1 tr2 st ins, ins = INS_ATTEST \/ ins = INS_SIGN -> history E key tr1 st1 -> ctx_kind (st_ctx st1) <> ins ->
  forall f : forall st1', history E key tr1 st1' -> st1' = st1,
  history E key (tr1 ++ tr2) st -> Forall (fun o => is_start ins o = false) tr2 -> ctx_kind (st_ctx st) <> ins.
Proof.
  intros E key tr1 st1 tr2 st ins Hi H1 C f. revert st. induction tr2 as [|[e outs] tr2 IH] using rev_ind; intros st H F.
  - rewrite app_nil_r in H. rewrite (f st H). exact C.
  - rewrite app_assoc in H. apply Forall_app in F as [F Fx]. inversion Fx as [|? ? Fx' _]; subst.
    apply history_last in H as (st0 & Hh & _ & _ & _ & M & D). specialize (IH st0 Hh F). intro K.
    destruct (context_born _ _ _ _ _ _ Hi M D K) as [X|X]; [congruence|contradiction].
Qed.
Lemma history_fun : forall E key tr st st', history E key tr st -> history E key tr st' -> st = st'.
Proof.
  intros E key tr. induction tr as [|[e outs] tr IH] using rev_ind; intros st st' H H'.
  - inversion H as [K|? ? ? ? ? ? ? ? ? K]; [|exfalso; eapply app_cons_not_nil; symmetry; exact K].
    inversion H' as [K'|? ? ? ? ? ? ? ? ? K']; [reflexivity|exfalso; eapply app_cons_not_nil; symmetry; exact K'].
  - apply history_last in H as (s & H1 & _ & _ & S & _). apply history_last in H' as (s' & H1' & _ & _ & S' & _).
    rewrite (IH _ _ H1 H1') in S. congruence.
Qed.
Lemma malformed_clears : forall E key tr o st, history E key (tr ++ [o]) st -> malformed_start o -> st_ctx st = X_NONE.
Proof.
  intros E key tr o st H (cla & p2 & data & r & -> & P). apply history_last in H as (s & _ & _ & _ & S & _).
  destruct (N.eqb_spec cla CLA) as [->|N].
  2: { exfalso. cbn [step] in S. unfold apdu_dispatcher in S. apply N.eqb_neq in N. change (cla =? 0xE0) with (cla =? CLA) in S. rewrite N in S. discriminate S. }
  rewrite attest_step in S. change (1 =? 0) with false in S. replace (p2 =? 0) with false in S by (symmetry; apply N.eqb_neq; lia). cbn [orb] in S.
  unfold handler_attest in S. destruct (st_busy s); [discriminate S|].
  replace (negb (p2 =? 1) && negb (p2 =? 2)) with true in S
    by (replace (p2 =? 1) with false by (symmetry; apply N.eqb_neq; lia); replace (p2 =? 2) with false by (symmetry; apply N.eqb_neq; lia); reflexivity).
  unfold handler_err in S. assert (st = set_command s CMD_NONE) by congruence. subst st. reflexivity.
Qed.
Lemma intact_body : forall E key tr st ins start body, ins = INS_ATTEST \/ ins = INS_SIGN -> history E key tr st ->
  session_of ins tr = Some (start, body) -> ctx_kind (st_ctx st) = ins -> Forall (fun o => ~ malformed_start o) body.
Proof.
  intros E key tr st ins start body Hi H S K. apply Forall_forall. intros o I Mf. apply session_suffix in S as (pre & -> & _ & F).
  apply in_split in I as (b1 & b2 & ->). apply Forall_app in F as [_ F]. pose proof (Forall_inv_tail F) as F2.
  replace (pre ++ start :: b1 ++ o :: b2) with ((pre ++ start :: b1 ++ [o]) ++ b2) in H by (rewrite <- app_assoc; cbn [List.app]; rewrite <- app_assoc; reflexivity).
  destruct (history_prefix _ _ _ _ _ H) as (s & Hs).
  assert (Cs : st_ctx s = X_NONE).
  { apply (malformed_clears E key (pre ++ start :: b1) o s); [|exact Mf]. rewrite <- app_assoc. exact Hs. }
  revert K. apply (no_context E key _ s b2 st ins Hi Hs); [rewrite Cs; destruct Hi as [-> | ->]; discriminate| |exact H|exact F2].
  intros s' Hs'. eapply history_fun; eassumption.
Qed.
Lemma busy_not : forall E st ins p1 p2 data r, ins = INS_ATTEST \/ ins = INS_SIGN -> st_busy st = true ->
  accepted (snd (step E st (Apdu CLA ins p1 p2 data r))) = false.
Proof.
  intros E st ins p1 p2 data r Hi B. rewrite step_params by (destruct Hi as [-> | ->]; reflexivity).
  destruct (params_ok ins p1 p2); [|reflexivity]. cbn [negb]. destruct Hi as [-> | ->]; [change (accepted (snd (handler_attest E st data p1 p2 r)) = false)|
    change (accepted (snd (handler_sign E st data p1 p2 r)) = false)]; [unfold handler_attest|unfold handler_sign]; rewrite B; reflexivity.
Qed.

Theorem accepts_sign_command : forall E key tr st sid sub data r, env_ok E -> history E key tr st ->
  event_ok (Apdu CLA INS_SIGN sub sid data r) -> sub <> 1 ->
  (accepted (snd (step E st (Apdu CLA INS_SIGN sub sid data r))) = true <->
   on_screen tr = None /\ exists start body, signing sid tr start body /\ admissible E key (description body) sub data).
Proof.
  intros E key tr st sid sub data r Henv H Hev N1. split.
  2: { intros (Hs & start & body & Sg & A). apply (accepts E key tr st sid start body sub data r Henv H Sg Hs Hev N1). exact A. }
  intro A. assert (Hs : on_screen tr = None).
  { apply (idle_iff E key tr st Henv H). destruct (st_busy st) eqn:B; [|reflexivity]. rewrite (busy_not E st INS_SIGN sub sid data r (or_intror eq_refl) B) in A. discriminate. }
  split; [exact Hs|]. destruct (step E st (Apdu CLA INS_SIGN sub sid data r)) as [st' outs] eqn:Es.
  assert (D : ~ In ODiverge outs) by (pose proof (no_diverge E st INS_SIGN sub sid data r (or_intror eq_refl) N1) as K; rewrite Es in K; exact K).
  assert (H' : history E key (tr ++ [(Apdu CLA INS_SIGN sub sid data r, outs)]) st') by (econstructor; eauto).
  destruct (accepted_sign _ _ _ _ _ _ _ _ _ Henv H' N1 A) as (st0 & g & start & body & s & B1 & _ & _ & _ & _ & B2 & _ & _ & B3 & _ & B4 & B5 & _).
  assert (st0 = st) by (eapply history_fun; eassumption). subst st0.
  assert (Sg : signing sid tr start body).
  { split; [split; [exact B3|]; split; [exact B4|right; exact B5]|].
    pose proof (intact_body E key tr st INS_SIGN start body (or_intror eq_refl) H B3) as M. rewrite B2 in M. specialize (M eq_refl).
    rewrite Forall_forall in M |- *. intros o I. split; [|apply M, I].
    destruct (signature o) as [sig|] eqn:So; [|reflexivity]. exfalso. apply session_suffix in B3 as (pre & -> & _ & F).
    apply in_split in I as (b1 & b2 & ->). apply Forall_app in F as [_ F]. pose proof (Forall_inv_tail F) as F2.
    replace ((pre ++ start :: b1 ++ o :: b2) ++ [(Apdu CLA INS_SIGN sub sid data r, outs)]) with ((pre ++ start :: b1) ++ o :: b2 ++ [(Apdu CLA INS_SIGN sub sid data r, outs)]) in H'
      by (rewrite <- !app_assoc; cbn [List.app]; rewrite <- !app_assoc; reflexivity).
    destruct (signature_ends _ _ _ _ _ _ _ _ Henv H' So) as (a & y & b & z & -> & Y & _).
    - unfold continuation. change (CLA =? 0xE0) with true. change (INS_SIGN =? INS_SIGN) with true. apply N.eqb_neq in N1. rewrite N1. cbn [snd] in A. rewrite A. discriminate.
    - apply Forall_app in F2 as [_ F2]. inversion F2; congruence. }
  exists start, body. split; [exact Sg|]. apply (accepts E key tr st sid start body sub data r Henv H Sg Hs Hev N1). rewrite Es. exact A.
Qed.
Theorem accepts_attest_command : forall E key tr st sid sub data r, env_ok E -> history E key tr st ->
  event_ok (Apdu CLA INS_ATTEST sub sid data r) -> sub <> 1 ->
  (accepted (snd (step E st (Apdu CLA INS_ATTEST sub sid data r))) = true <->
   on_screen tr = None /\ exists start body, attesting sid tr start body /\ admissible_box (streamed_box start body) sub data).
Proof.
  intros E key tr st sid sub data r Henv H Hev N1. split.
  2: { intros (Hs & start & body & Sg & A). apply (accepts_box E key tr st sid start body sub data r Henv H Sg Hs Hev N1). exact A. }
  intro A. assert (Hs : on_screen tr = None).
  { apply (idle_iff E key tr st Henv H). destruct (st_busy st) eqn:B; [|reflexivity]. rewrite (busy_not E st INS_ATTEST sub sid data r (or_introl eq_refl) B) in A. discriminate. }
  split; [exact Hs|]. destruct (step E st (Apdu CLA INS_ATTEST sub sid data r)) as [st' outs] eqn:Es.
  assert (D : ~ In ODiverge outs) by (pose proof (no_diverge E st INS_ATTEST sub sid data r (or_introl eq_refl) N1) as K; rewrite Es in K; exact K).
  assert (H' : history E key (tr ++ [(Apdu CLA INS_ATTEST sub sid data r, outs)]) st') by (econstructor; eauto).
  destruct (same_session _ _ _ _ _ _ _ _ _ _ Henv (or_introl eq_refl) H' N1 A) as (start & body & O).
  assert (X : ctx_kind (st_ctx st) = INS_ATTEST).
  { assert (P : sub <> 0 /\ sid <> 0).
    { rewrite attest_step in Es. destruct (N.eqb_spec sub 0) as [->|]; [assert (outs = [resp SW_WRONG_P1P2]) by (cbn [orb] in Es; congruence); subst outs; discriminate A|].
      destruct (N.eqb_spec sid 0) as [->|]; [assert (outs = [resp SW_WRONG_P1P2]) by (cbn [orb] in Es; congruence); subst outs; discriminate A|]. auto. }
    apply history_last in H' as (s & Hh & _ & _ & _ & M & _). assert (s = st) by (eapply history_fun; eassumption). subst s.
    inversion M; subst; try discriminate; try congruence; try solve [other];
      try (match goal with K : st_ctx _ = X_ATTEST _ |- _ => rewrite K; reflexivity end);
      try (match goal with K : (if ?b then UiApprove else UiReject) = _ |- _ => destruct b; discriminate K end).
    - exfalso. match goal with K : refused _ _ _ |- _ => unfold refused in K; cbv beta iota in K; destruct K as [K|[K|[K|[K|K]]]]; decompose [and] K end; subst; discriminate A.
    - exfalso. match goal with K : handler_error s = true \/ _ |- _ => destruct K as [K|[K _]]; destruct s; discriminate end. }
  assert (Sg : attesting sid tr start body).
  { split; [exact O|]. apply (intact_body E key tr st INS_ATTEST start body (or_introl eq_refl) H (proj1 O) X). }
  exists start, body. split; [exact Sg|]. apply (accepts_box E key tr st sid start body sub data r Henv H Sg Hs Hev N1). rewrite Es. exact A.
Qed.
