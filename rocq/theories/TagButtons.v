(** Runs by buttons in which cx_hmac_sha256 fails, and their counterparts. *)
From Coq Require Import String.
From Verif Require Import Lib Base Env UiFlow P2pkOp App SpecApdu SpecTrace SpecTx SpecSign SpecScreen
  Fault LowApp SpecFault LowProofs FaultProofs Buttons SpecButtons ButtonProofs FaultButtons SpecFaultRun ButtonFault SpecTags TagBase TagProofs.

#[local] Arguments N.eqb : simpl never.
#[local] Arguments blen : simpl never.

Lemma press_right : forall E F U d b, press_by (fstep E F) U d b = press_by (fstep E (tags_right F)) U d b.
Proof.
  intros E F U d b. destruct (press_once U d b) as [(d1 & K & _)|(e & at_ & Hu & K & _)]; [rewrite !K; reflexivity|].
  apply K. destruct e; try discriminate Hu; reflexivity.
Qed.
Lemma hoperated_last : forall E U key l F a os d', hoperated E U key (l ++ [(F, (a, os))]) d' ->
  exists d, hoperated E U key l d /\ stack_ok F /\ leaves_bytes F /\ action_ok a /\ foperate E F U d a = (d', os) /\ sound os.
Proof.
  intros E U key l F a os d' H. inversion H as [K|l0 d F0 a0 d0 os0 H1 H2 H3 H4 H5 H6 K].
  - exfalso. eapply app_cons_not_nil. exact K.
  - apply app_inj_tail in K as [-> K]. injection K as -> -> ->. exists d. auto 10.
Qed.
Lemma hoperated_det : forall E U key l d1 d2, hoperated E U key l d1 -> hoperated E U key l d2 -> d2 = d1.
Proof.
  intros E U key l d1 d2 H. revert d2. induction H as [|l d F a d' os H IH HF HM Ha Ho Hs]; intros d2 H2.
  - inversion H2 as [K|? ? ? ? ? ? ? ? ? ? ? ? K]; [reflexivity|]. exfalso. eapply app_cons_not_nil. symmetry. exact K.
  - apply hoperated_last in H2 as (d0 & H2 & _ & _ & _ & Ho2 & _). apply IH in H2. subst d0. congruence.
Qed.

Lemma retagged_shows : forall e outs e' outs' (d : device), retagged (e, outs) (e', outs') ->
  existsb (fun o => match o with OShow _ _ _ => true | _ => false end) outs = existsb (fun o => match o with OShow _ _ _ => true | _ => false end) outs'.
Proof. intros e outs e' outs' d H. inversion H; reflexivity. Qed.
Lemma retagged_host : forall o o', retagged o o' -> by_user (fst o') = false.
Proof. intros o o' H. destruct H; reflexivity. Qed.
Lemma retagged_sound : forall e outs e' outs', retagged (e, outs) (e', outs') -> sound [(e, outs)] -> sound [(e', outs')].
Proof.
  intros e outs e' outs' R H. apply Forall_inv in H as [H1 H2]. cbn [snd] in *. constructor; [|constructor]. cbn [snd].
  inversion R; subst; split; try assumption; intros [K|[]]; discriminate K.
Qed.
Lemma operate_right : forall E F U d a d1 os, env_ok E -> stack_ok F -> leaves_bytes F -> action_ok a -> st_range E (dv_st d) ->
  foperate E F U d a = (d1, os) -> sound os ->
  exists a' os', handed_right (F, (a, os)) (tags_right F, (a', os')) /\ action_ok a' /\ foperate E (tags_right F) U d a' = (d1, os') /\ sound os'.
Proof.
  intros E F U d a d1 os HE HS HF Ha Hr Ho Hs. destruct a as [e|b]; cbn [foperate] in Ho.
  2:{ exists (Press b), os. split; [apply hr_same|]. split; [exact I|]. cbn [foperate]. rewrite <- press_right. split; assumption. }
  destruct Ha as [Hu He]. destruct (step_retags E F (dv_st d) e HE HS HF He Hr) as [Q|(Hf & e' & outs' & He' & Rt & Q)].
  - exists (Host e), os. split; [apply hr_same|]. split; [split; assumption|]. cbn [foperate]. split; [|exact Hs]. etransitivity; [|exact Ho]. unfold receive_by. rewrite Q. reflexivity.
  - unfold receive_by in Ho. destruct (fstep E F (dv_st d) e) as [st1 outs] eqn:S. cbn [fst snd] in *. pose proof (retagged_shows _ _ _ _ d Rt) as Sh.
    destruct (dv_at d) eqn:A.
    4:{ exists (Host e), os. split; [apply hr_same|]. split; [split; assumption|]. split; [|exact Hs]. cbn [foperate]. unfold receive_by. rewrite A. exact Ho. }
    all: apply pair_equal_spec in Ho as [<- <-]; exists (Host e'), [(e', outs')]; split; [apply hr_other; assumption|]; split; [split; [exact (retagged_host _ _ Rt)|exact He']|];
      split; [|exact (retagged_sound _ _ _ _ Rt Hs)]; cbn [foperate]; unfold receive_by; rewrite A, Q, <- Sh; reflexivity.
Qed.

Inductive paired (E : env) (U : ux) (key : bytes) : list fdeed -> list fdeed -> device -> Prop :=
| pa_start : paired E U key [] [] (switched_on key)
| pa_more : forall l l' d x x' d1, paired E U key l l' d -> handed_right x x' -> hoperated E U key (l ++ [x]) d1 -> foperated E U key (l' ++ [x']) d1 ->
    paired E U key (l ++ [x]) (l' ++ [x']) d1.
Lemma paired_runs : forall E U key l l' d, paired E U key l l' d -> hoperated E U key l d /\ foperated E U key l' d /\ Forall2 handed_right l l'.
Proof.
  intros E U key l l' d H. induction H as [|l l' d x x' d1 H IH R H1 H2]; [repeat constructor|].
  split; [exact H1|]. split; [exact H2|]. apply Forall2_app; [apply IH|constructor; [exact R|constructor]].
Qed.
Lemma pair_up : forall E U key l d, env_ok E -> hoperated E U key l d -> exists l', paired E U key l l' d.
Proof.
  intros E U key l d HE H. induction H as [|l d F a d1 os H IH HS HF Ha Ho Hs]; [exists []; constructor|].
  destruct IH as (l' & P). destruct (paired_runs _ _ _ _ _ _ P) as (_ & Hf & _). destruct (shadow_history _ _ _ _ HE (foperated_history _ _ _ _ _ Hf)) as (tr2 & _ & Hh2).
  destruct (operate_right E F U d a d1 os HE HS HF Ha (reachable_range _ _ _ _ HE Hh2) Ho Hs) as (a' & os' & R & Ha' & Ho' & Hs').
  exists (l' ++ [(tags_right F, (a', os'))]). eapply pa_more; [exact P|exact R| |].
  - eapply hoperated_more; eassumption.
  - eapply foperated_more; [exact Hf|apply right_stack, HS|apply right_hmac|exact Ha'|exact Ho'|exact Hs'].
Qed.
Lemma paired_prefix : forall E U key l l' d l1 l2, paired E U key l l' d -> l = l1 ++ l2 -> exists d1, paired E U key l1 (firstn (length l1) l') d1.
Proof.
  intros E U key l l' d l1 l2 H. revert l1 l2. induction H as [|l l' d x x' d1 H IH R H1 H2]; intros l1 l2 Eq.
  - symmetry in Eq. apply app_eq_nil in Eq as [-> ->]. eexists. constructor.
  - assert (Len : length l' = length l). { destruct (paired_runs _ _ _ _ _ _ H) as (_ & _ & Q). clear - Q. induction Q; [reflexivity|]. cbn [length]. congruence. }
    destruct l2 as [|y l2 _] using rev_ind.
    + rewrite app_nil_r in Eq. subst l1. exists d1. rewrite firstn_all2 by (rewrite !app_length; cbn [length]; lia). eapply pa_more; eassumption.
    + rewrite app_assoc in Eq. apply app_inj_tail in Eq as [Eq _]. destruct (IH _ _ Eq) as (d0 & P). exists d0.
      rewrite firstn_app. assert (length l1 <= length l')%nat by (rewrite Len, Eq, app_length; lia).
      replace (length l1 - length l')%nat with 0%nat by lia. cbn [firstn]. rewrite app_nil_r. exact P.
Qed.
Lemma paired_length : forall E U key l l' d, paired E U key l l' d -> length l' = length l.
Proof. intros E U key l l' d H. destruct (paired_runs _ _ _ _ _ _ H) as (_ & _ & Q). clear - Q. induction Q; [reflexivity|]. cbn [length]. congruence. Qed.

Theorem run_retagged : forall E U key l d, env_ok E -> hoperated E U key l d -> exists l', Forall2 handed_right l l' /\ foperated E U key l' d /\
  forall l1 l2, l = l1 ++ l2 -> exists d1, hoperated E U key l1 d1 /\ foperated E U key (firstn (length l1) l') d1.
Proof.
  intros E U key l d HE H. destruct (pair_up _ _ _ _ _ HE H) as (l' & P). exists l'. destruct (paired_runs _ _ _ _ _ _ P) as (_ & A & B). split; [exact B|]. split; [exact A|].
  intros l1 l2 Eq. destruct (paired_prefix _ _ _ _ _ _ _ _ P Eq) as (d1 & P1). destruct (paired_runs _ _ _ _ _ _ P1) as (X & Y & _). exists d1. auto.
Qed.

(** * Back *)
Lemma back_question : forall E U key l l' d l1' l2' k f pages, paired E U key l l' d -> l' = l1' ++ l2' -> put (map snd l1') k f pages -> still (map snd l2') ->
  exists l1 l2, l = l1 ++ l2 /\ put (map snd l1) k f pages /\ still (map snd l2) /\ forall c p, fseen E U key l1' l2' c p -> hseen E U key l1 l2 c p.
Proof.
  intros E U key l l' d l1' l2' k f pages P -> Pt St. pose proof (paired_length _ _ _ _ _ _ P) as Len. destruct (paired_runs _ _ _ _ _ _ P) as (_ & _ & R).
  apply Forall2_app_inv_r in R as (l1 & l2 & R1 & R2 & ->). exists l1, l2. split; [reflexivity|]. 
  assert (Len1 : length l1' = length l1). { clear - R1. induction R1; [reflexivity|]. cbn [length]. congruence. }
  split; [|split].
  - destruct Pt as (l0 & e & Q). destruct l1' as [|y l1' _] using rev_ind; [exfalso; eapply app_cons_not_nil; exact Q|]. rewrite map_app in Q. cbn [map] in Q. apply app_inj_tail in Q as [_ Q].
    apply Forall2_app_inv_r in R1 as (m & n & _ & R1 & ->). inversion R1 as [|x y0 n0 l0' Hx Hn]; subst. inversion Hn; subst.
    exists (map snd m). rewrite map_app. cbn [map]. inversion Hx as [F x0|F e0 outs e' outs' Hf Rt]; subst; cbn [snd] in *.
    + subst x0. exists e. reflexivity.
    + assert (outs' = [OShow k f pages]) as -> by congruence. inversion Rt; subst. eexists. reflexivity.
  - clear - R2 St. induction R2 as [|x y l2 l2' Hx R2 IH]; [constructor|]. cbn [map] in St. inversion St as [|x0 y0 S1 S2]; subst. cbn [map]. constructor; [|apply IH; exact S2].
    inversion Hx as [F x0|F e0 outs e' outs' Hf Rt]; subst; [exact S1|]. exact I.
  - intros c p (x1 & x2 & dd & -> & Hd & Dp). apply Forall2_app_inv_r in R2 as (y1 & y2 & Q1 & Q2 & ->).
    assert (Len2 : length x1 = length y1). { clear - Q1. induction Q1; [reflexivity|]. cbn [length]. congruence. }
    exists y1, y2. destruct (paired_prefix _ _ _ _ _ _ (l1 ++ y1) y2 P (app_assoc _ _ _)) as (d1 & P1). exists d1. split; [reflexivity|].
    destruct (paired_runs _ _ _ _ _ _ P1) as (X & Y & _). split; [exact X|]. rewrite app_assoc in Y. rewrite firstn_app in Y. rewrite firstn_all2 in Y by (rewrite !app_length; lia).
    replace (length (l1 ++ y1) - length (l1' ++ x1))%nat with 0%nat in Y by (rewrite !app_length; lia). cbn [firstn] in Y. rewrite app_nil_r in Y.
    rewrite (foperated_det _ _ _ _ _ _ Hd Y). exact Dp.
Qed.
Lemma paired_last : forall E U key l x l' d, paired E U key (l ++ [x]) l' d -> exists m x' d0, l' = m ++ [x'] /\ paired E U key l m d0 /\ handed_right x x'.
Proof.
  intros E U key l x l' d H. inversion H as [K|l0 ls0 d0 x0 k d1 M S H1 H2 K].
  - exfalso. eapply app_cons_not_nil. exact K.
  - apply app_inj_tail in K as [-> ->]. eauto 10.
Qed.
Lemma retagged_signature : forall o o' sig, retagged o o' -> signature o = Some sig -> exists sig', signature o' = Some sig'.
Proof.
  intros o o' sig R H. destruct R as [p2 data r a t t' Lt Lt'| |]; [|exists sig; exact H|exists sig; exact H].
  unfold signature in *. cbn [snd] in *. assert (blen (a ++ t') = blen (a ++ t)) as -> by (unfold blen; rewrite !app_length; lia).
  destruct (blen (a ++ t) =? 56); [eauto|discriminate].
Qed.
Theorem signed_untagged : forall E U key l F a os d o sig, env_ok E -> hoperated E U key (l ++ [(F, (a, os))]) d -> In o os -> signature o = Some sig ->
  a = Press BOTH /\ exists d0 l1 l2 f pages, hoperated E U key l d0 /\ displayed d0 = Some (C_APPROVE, O) /\ l = l1 ++ l2 /\ put (map snd l1) U_STX_TX f pages /\ still (map snd l2) /\
    (hseen E U key l1 l2 C_REJECT O \/
     forall oc, In oc (cards f pages) -> exists c, oc = Some c /\ (c = C_REJECT \/ forall p, (p <= extra U c)%nat -> hseen E U key l1 l2 c p)).
Proof.
  intros E U key l F a os d o sig HE H Hin Hsig. destruct (pair_up _ _ _ _ _ HE H) as (l' & P). destruct (paired_last _ _ _ _ _ _ _ P) as (m & x' & d0 & -> & P0 & R).
  destruct (paired_runs _ _ _ _ _ _ P) as (_ & Hf & _). destruct (paired_runs _ _ _ _ _ _ P0) as (H0 & Hf0 & _).
  inversion R as [F0 x0|F0 e outs e' outs' Hfl Rt]; subst.
  - destruct (signed_by_hand _ _ _ _ _ _ _ _ _ _ HE Hf Hin Hsig) as (-> & dd & l1' & l2' & f & pages & Hd & Dp & El & Pt & St & Sn). split; [reflexivity|].
    destruct (back_question _ _ _ _ _ _ _ _ _ _ _ P0 El Pt St) as (l1 & l2 & -> & Pt' & St' & Sn'). exists d0, l1, l2, f, pages.
    split; [exact H0|]. split; [rewrite (foperated_det _ _ _ _ _ _ Hd Hf0); exact Dp|]. split; [reflexivity|]. split; [exact Pt'|]. split; [exact St'|].
    destruct Sn as [Sn|Sn]; [left; apply Sn'; exact Sn|]. right. intros oc Ho. destruct (Sn oc Ho) as (c & -> & K). exists c. split; [reflexivity|].
    destruct K as [->|K]; [left; reflexivity|]. right. intros p Hp. apply Sn', K. exact Hp.
  - exfalso. destruct Hin as [<-|[]]. destruct (retagged_signature _ _ _ Rt Hsig) as (sig' & Hs').
    destruct (signed_by_hand _ _ _ _ _ _ _ _ _ _ HE Hf (or_introl eq_refl) Hs') as (K & _). discriminate K.
Qed.
Theorem answered_untagged : forall E U key l F b os d', env_ok E -> hoperated E U key (l ++ [(F, (Press b, os))]) d' -> answered (Press b, os) = true ->
  exists d l1 l2 k f pages, hoperated E U key l d /\ l = l1 ++ l2 /\ put (map snd l1) k f pages /\ still (map snd l2) /\
    (decision k pages d b os \/ (call_failed F /\ exists e s, fault_status s /\ os = [(e, [OResp [] s])])).
Proof.
  intros E U key l F b os d' HE H An. destruct (pair_up _ _ _ _ _ HE H) as (l' & P). destruct (paired_last _ _ _ _ _ _ _ P) as (m & x' & d0 & -> & P0 & R).
  destruct (paired_runs _ _ _ _ _ _ P) as (_ & Hf & _). destruct (paired_runs _ _ _ _ _ _ P0) as (H0 & Hf0 & _). inversion R; subst.
  destruct (answered_by_hand _ _ _ _ _ _ _ _ HE Hf An) as (dd & l1' & l2' & k & f & pages & Hd & El & Pt & St & K).
  destruct (back_question _ _ _ _ _ _ _ _ _ _ _ P0 El Pt St) as (l1 & l2 & -> & Pt' & St' & _). exists d0, l1, l2, k, f, pages.
  split; [exact H0|]. split; [reflexivity|]. split; [exact Pt'|]. split; [exact St'|]. rewrite <- (foperated_det _ _ _ _ _ _ Hf0 Hd). rewrite <- right_failed. exact K.
Qed.

(** * What is signed *)
Theorem message_untagged : forall E key tr F o st sig, env_ok E -> hhistory E key (tr ++ [(F, o)]) st -> signature o = Some sig ->
  fst o = UiApprove /\
  exists tr1 tr2 start body sid, Forall2 tagged_right tr tr1 /\ Forall2 shadow tr1 tr2 /\ session_of INS_SIGN tr2 = Some (start, body) /\
    approved_in INS_SIGN sid body /\ (exists q f pages, on_screen tr2 = Some (q, U_STX_TX, f, pages)) /\
    signed_message E start (streamed_bytes E (description body)) sig.
Proof.
  intros E key tr F o st sig HE H Hsig. destruct (history_retagged _ _ _ _ HE H) as (tr' & R & Hf).
  apply Forall2_snoc_l in R as (m & x' & -> & Rm & R).
  inversion R as [F0 o0|F0 o0 o' Hfl Rt]; subst.
  - destruct (signed_despite _ _ _ _ _ _ _ HE Hf Hsig) as (A & tr2 & start & body & sid & K). split; [exact A|]. exists m, tr2, start, body, sid. split; [exact Rm|exact K].
  - exfalso. destruct (retagged_signature _ _ _ Rt Hsig) as (sig' & Hs'). destruct (signed_despite _ _ _ _ _ _ _ HE Hf Hs') as (A & _).
    destruct Rt; discriminate A.
Qed.
