(** The wallet of SpecWallet on the whole device. *)
From Verif Require Import Lib Env TxTable UiFlow P2pkOp App SpecTree SpecTrace SpecTx SpecAmounts SpecApdu
  SpecScreen SpecRequest SpecSign SpecRules SpecAccept SpecAttest SpecStart Moves TraceSign TraceAttest
  TraceScreen TraceShow DispatchProofs SessionProofs AttestProofs AcceptProofs AttestAccept OpenAccept
  SpecRaw Wire SpecWire WireProofs HostAttest HostSign HostRun Buttons SpecButtons ButtonProofs ButtonRun Whole SpecWhole WholeProofs WholeAll SpecHost SpecWallet WalletProofs.
From Verif Require PropWire PropButtons.

#[local] Arguments N.eqb : simpl never.
#[local] Arguments N.ltb : simpl never.
#[local] Arguments N.leb : simpl never.
#[local] Arguments N.sub : simpl never.
#[local] Arguments blen : simpl never.
#[local] Arguments num : simpl never.
#[local] Arguments slice : simpl never.
#[local] Arguments app : simpl never.

Lemma told_last : forall E U key tr m l, tells_of E U key (tr ++ [m]) l ->
  exists l1 os, l = l1 ++ [(understood (mo_act m), os)] /\ tells_of E U key tr l1 /\ mo_sent m = answer_packets (understood (mo_act m), os).
Proof.
  intros E U key tr m l T. pose proof (tells_of_length _ _ _ _ _ T) as L. destruct l as [|[a os] l1 _] using rev_ind; [rewrite app_length in L; cbn in L; lia|].
  rewrite !app_length in L. cbn [length] in L. pose proof (tells_of_prefix _ _ _ _ _ _ T) as T1. rewrite firstn_app in T1. replace (length tr - length l1)%nat with 0%nat in T1 by lia.
  rewrite firstn_all2 in T1 by lia. cbn [firstn] in T1. rewrite app_nil_r in T1. destruct T as (A & B & _). rewrite !map_app in A, B. cbn [map fst] in A, B.
  apply app_inj_tail in A as [_ A]. apply app_inj_tail in B as [_ B]. subst a. exists l1, os. split; [reflexivity|]. split; [exact T1|exact B].
Qed.
Lemma told_shown : forall E U key tr l d, operated E U key l d -> tells_of E U key tr l -> l <> [] -> shown_last tr (displayed d).
Proof.
  intros E U key tr l d H T N0. pose proof (tells_of_length _ _ _ _ _ T) as L. destruct tr as [|m tr _] using rev_ind; [destruct l; [congruence|discriminate L]|].
  exists tr, m. split; [reflexivity|]. destruct T as (_ & _ & T). destruct (T (length tr) m) as (d' & O & S); [rewrite nth_error_app2, Nat.sub_diag by lia; reflexivity|].
  rewrite app_length in L. cbn [length] in L. rewrite firstn_all2 in O by lia. rewrite S. f_equal. eapply operated_det; eassumption.
Qed.
Lemma sent_none : forall a, answer_packets (a, []) = []. Proof. reflexivity. Qed.
Lemma sent_one : forall a e b s, answer_packets (a, [(e, [OResp b s])]) = [packet_of b s]. Proof. reflexivity. Qed.

(** ** All commands answered *)
Definition hosts (l : list deed) : nat := length (filter (fun x => match fst x with Host _ => true | Press _ => false end) l).
Lemma count_app : forall a b, command_count (a ++ b) = (command_count a + command_count b)%nat.
Proof. intros a b. unfold command_count. rewrite filter_app, app_length. reflexivity. Qed.
Lemma hosts_app : forall a b, hosts (a ++ b) = (hosts a + hosts b)%nat.
Proof. intros a b. unfold hosts. rewrite filter_app, app_length. reflexivity. Qed.
Lemma counted : forall E U key l d, env_ok E -> operated E U key l d -> dv_at d <> P_OFF -> command_count (happened l) = hosts l.
Proof.
  intros E U key l. induction l as [|[a os] l IH] using rev_ind; intros d Henv H Hd; [reflexivity|].
  apply operated_last in H as (d0 & H & Ha & Ho & So). rewrite happened_snoc, count_app, hosts_app.
  destruct a as [e|b]; cbn [operate] in *.
  - destruct (receive_shape _ _ _ _ _ Ho) as [(K & _ & ->)|(outs & K & -> & _)]; [contradiction|]. rewrite (IH d0 Henv H K). unfold command_count. cbn [filter fst]. destruct Ha as [-> _]. reflexivity.
  - assert (K : dv_at d0 <> P_OFF). { intro K. unfold press in Ho. rewrite K in Ho. assert (d = d0) as -> by congruence. contradiction. }
    rewrite (IH d0 Henv H K). destruct (press_single _ _ _ _ _ _ Ho) as [[-> _]|(e & outs & -> & Hu & _)]; [reflexivity|]. unfold command_count. cbn [filter fst]. rewrite Hu. reflexivity.
Qed.
Lemma answers_app : forall a b, answer_count (a ++ b) = (answer_count a + answer_count b)%nat.
Proof. intros a b. unfold answer_count. rewrite map_app, concat_app, filter_app, app_length. reflexivity. Qed.
Lemma packets_count : forall outs, length (SpecWhole.packets (map on_the_wire outs)) = length (filter (fun o => match o with OResp _ _ => true | _ => false end) outs).
Proof. intros outs. unfold SpecWhole.packets. induction outs as [|o outs IH]; [reflexivity|]. destruct o; cbn [map on_the_wire flat_map filter]; rewrite app_length, IH; reflexivity. Qed.
Lemma sent_count : forall l, length (concat (map answer_packets l)) = answer_count (happened l).
Proof.
  induction l as [|[a os] l IH]; [reflexivity|].
  assert (K : length (answer_packets (a, os)) = answer_count os) by (unfold answer_packets; cbn [snd]; apply packets_count).
  assert (P : answer_count (happened ((a, os) :: l)) = (answer_count os + answer_count (happened l))%nat) by (rewrite <- answers_app; reflexivity).
  refine (eq_trans _ (eq_sym P)). rewrite <- IH, <- K. rewrite <- app_length. reflexivity.
Qed.
Lemma arrived_count : forall tr l, map (fun m => understood (mo_act m)) tr = map fst l ->
  length (filter (fun m => match mo_act m with Arrives _ _ => true | Presses _ => false end) tr) = hosts l.
Proof.
  induction tr as [|m tr IH]; intros [|x l] K; try discriminate K; [reflexivity|]. cbn [map] in K. assert (K1 : understood (mo_act m) = fst x) by congruence.
  assert (K2 : map (fun m => understood (mo_act m)) tr = map fst l) by congruence. unfold hosts in *. cbn [filter]. rewrite <- K1. destruct (mo_act m); cbn [understood]; [cbn [length]; f_equal|]; exact (IH _ K2).
Qed.
Lemma nothing_asked : forall E U key tr l d, env_ok E -> operated E U key l d -> tells_of E U key tr l -> all_answered tr -> displayed d = None \/ on_screen (happened l) = None.
Proof.
  intros E U key tr l d Henv H (T1 & T2 & _) A. destruct (displayed d) as [x|] eqn:D; [right|left; reflexivity].
  assert (Hd : dv_at d <> P_OFF) by (intro K; unfold displayed in D; rewrite K in D; discriminate D).
  unfold all_answered in A. rewrite (arrived_count _ _ T1), T2, sent_count in A. rewrite <- (counted _ _ _ _ _ Henv H Hd) in A.
  pose proof (PropWire.C72_count _ _ _ _ Henv (operated_history _ _ _ _ _ H)) as C. unfold open_questions in C. destruct (on_screen (happened l)); [lia|reflexivity].
Qed.

Section Run.
  Variables (E : env) (U : ux) (key : bytes) (p : plan) (tr0 : list moment) (ALL : list moment).
  Hypothesis Henv : env_ok E.
  Hypothesis Fit : tx_fits E (pl_tx p).
  Definition opened_with (r : rnd) : Prop := exists m, In m ALL /\ mo_act m = Arrives (opening p) r.
  Definition hold (s : wallet) (h : list obs) : Prop := holds E key p opened_with s h.
  (** Between commands, or while a question is there. *)
  Definition talking (s : wallet) (due : bool) (l : list deed) (d : device) : Prop :=
    (exists h, hold s h) /\
    (displayed d = None \/
     due = false /\ on_screen (happened l) = None /\ hold s (happened l) \/
     due = true /\ exists h0 e k f pages b sw qs st2, happened l = h0 ++ (e, [OShow k f pages]) :: qs /\ Forall unheard qs /\ asking_kind k /\
       on_screen (happened l) = Some (e, k, f, pages) /\ history E key (h0 ++ [(e, [OShow k f pages]); (UiApprove, [OResp b sw])]) st2 /\
       (displayable E (pl_tx p) -> forall x, ~ In (Fail x) pages) /\
       forall qs ue, Forall unheard qs -> ue = UiApprove \/ ue = UiPathBoth /\ k = U_STX_APPROVE -> hold (hears p s (packet_of b sw)) (h0 ++ (e, [OShow k f pages]) :: qs ++ [(ue, [OResp b sw])])).

  Lemma talking_send : forall s l d packet r os d', talking s false l d -> operated E U key l d -> next_packet p s = Some packet -> lucky E p s r ->
    operated E U key (l ++ [(Host (command_of packet r), os)]) d' ->
    (s = WA_OPEN (map (frames_of E key) (w_inputs (pl_tx p))) [] -> opened_with r) ->
    forall s' due, listened p s true (answer_packets (Host (command_of packet r), os)) = (s', due) -> talking s' due (l ++ [(Host (command_of packet r), os)]) d'.
  Proof.
    intros s l d packet r os d' [Any T] H Np Lu H' HR s' due Li. pose proof (operated_history _ _ _ _ _ H) as Hh. pose proof (operated_history _ _ _ _ _ H') as Hh'. rewrite happened_snoc in Hh'.
    destruct T as [T|[(_ & Sc & Ho)|(K & _)]]; [| |discriminate K].
    - destruct (off_stays _ _ _ _ _ Henv H T _ _ H') as [-> K]. unfold happened in K. cbn [map snd concat] in K. rewrite app_nil_r in K. subst os. rewrite sent_none in Li. injection Li as <- <-.
      split; [exact Any|left; exact T].
    - apply operated_last in H' as (d0 & H0 & Ha & Hop & So). assert (d0 = d) as -> by (eapply operated_det; eassumption). cbn [operate] in Hop.
      destruct (receive_shape _ _ _ _ _ Hop) as [(K & -> & ->)|(outs & K & -> & Hst & _)].
      { rewrite sent_none in Li. injection Li as <- <-. split; [exact Any|left]. unfold displayed. rewrite K. reflexivity. }
      destruct Ha as [Hu Hev]. pose proof (next_heard p s packet r Np) as Ne.
      destruct (answer_at_once E key p Henv Fit opened_with s (happened l) _ r _ outs _ Ho Hh Sc Ne Hev Lu HR Hh') as [(b & -> & Ho')|(k & f & pages & b & sw & st2 & -> & Ak & H2 & Cl & Ho')].
      + rewrite sent_one in Li. cbn [listened fold_left] in Li. rewrite hears_ok in Li. assert (s' = heard_ok p s b) as -> by congruence. assert (due = false) as -> by congruence.
        split; [eexists; exact Ho'|]. right. left. split; [reflexivity|]. rewrite happened_snoc. split; [rewrite on_screen_snoc; unfold question_after; cbn [fst snd shown_by]; rewrite Hu; exact Sc|exact Ho'].
      + change (answer_packets (Host (command_of packet r), [(command_of packet r, [OShow k f pages])])) with (@nil bytes) in Li. cbn [listened] in Li. assert (s' = s) as -> by congruence. assert (due = true) as -> by congruence.
        split; [exact Any|]. right. right. split; [reflexivity|]. exists (happened l), (command_of packet r), k, f, pages, b, sw, [], st2. rewrite happened_snoc. split; [reflexivity|]. split; [constructor|].
        split; [exact Ak|]. split; [rewrite on_screen_snoc; reflexivity|]. split; [exact H2|]. split; [exact Cl|exact Ho'].
  Qed.
  Lemma menu_silent : forall l d b d' os, operated E U key l d -> on_screen (happened l) = None -> press E U d b = (d', os) -> Forall unheard os.
  Proof.
    intros l d b d' os H Sc P. destruct (PropButtons.C66_menu _ _ _ _ _ Henv H Sc) as [D|(c & q & _ & _ & _ & M)].
    - assert (Hd : dv_at d = P_OFF) by (apply (shown_or_off _ _ _ _ _ Henv H D)). unfold press in P. rewrite Hd in P. assert (os = []) as -> by congruence. constructor.
    - specialize (M b). rewrite P in M. cbn [snd] in M.
      assert (N0 : forall e : event, by_user e = true -> Forall unheard [(e, @nil output)]) by (intros e He; constructor; [|constructor]; split; [exact He|]; split; [reflexivity|]; split; [reflexivity|intros []]).
      destruct M as [-> |[(_ & _ & ->)|(_ & _ & ->)]]; [constructor|apply N0; reflexivity|apply N0; reflexivity].
  Qed.
  Lemma silent_sent : forall a os, Forall unheard os -> answer_packets (a, os) = [].
  Proof.
    intros a os F. apply length_zero_iff_nil. unfold answer_packets. cbn [snd]. rewrite packets_count. apply length_zero_iff_nil. induction F as [|o os (_ & _ & R & _) F IH]; [reflexivity|].
    cbn [map concat]. rewrite filter_app, IH. rewrite app_nil_r. unfold responds in R. induction (snd o) as [|x t IHt]; [reflexivity|]. cbn [existsb] in R. apply orb_false_iff in R as [R1 R2].
    destruct x; try discriminate R1; cbn [filter]; exact (IHt R2).
  Qed.
  Lemma talking_press : forall s due l d b os d', talking s due l d -> operated E U key l d -> tells_of E U key (tr0 ++ ALL) l \/ True ->
    operated E U key (l ++ [(Press b, os)]) d' ->
    (answer_packets (Press b, os) <> [] -> b = BOTH /\ (l <> [] -> displayed d <> Some (C_REJECT, O))) ->
    forall s' due', listened p s due (answer_packets (Press b, os)) = (s', due') -> talking s' due' (l ++ [(Press b, os)]) d'.
  Proof.
    intros s due l d b os d' [Any T] H _ H' NR s' due' Li. pose proof (operated_history _ _ _ _ _ H) as Hh. pose proof (operated_history _ _ _ _ _ H') as Hh'. rewrite happened_snoc in Hh'.
    assert (Op : press E U d b = (d', os) /\ sound os).
    { pose proof H' as H2. apply operated_last in H2 as (d0 & H0 & _ & Hop & So). assert (d0 = d) as -> by (eapply operated_det; eassumption). split; assumption. } destruct Op as [Hop So].
    destruct T as [T|[(-> & Sc & Ho)|(-> & h0 & e & k & f & pages & ab & sw & qs & st2 & Eh & Fq & Ak & Sc & H2 & Cl & Ho)]].
    - destruct (off_stays _ _ _ _ _ Henv H T _ _ H') as [-> K]. unfold happened in K. cbn [map snd concat] in K. rewrite app_nil_r in K. subst os. rewrite sent_none in Li. injection Li as <- <-.
      split; [exact Any|left; exact T].
    - pose proof (menu_silent _ _ _ _ _ H Sc Hop) as F. rewrite (silent_sent _ _ F) in Li. cbn [listened] in Li. assert (s' = s) as -> by congruence. assert (due' = false) as -> by congruence.
      split; [exact Any|]. right. left. split; [reflexivity|]. rewrite happened_snoc. split; [rewrite screen_all by exact F; exact Sc|].
      clear - F Ho. revert Ho. generalize (happened l). induction F as [|o os Hu F IH]; intros h Ho; [rewrite app_nil_r; exact Ho|]. change (o :: os) with ([o] ++ os). rewrite app_assoc. apply IH. apply holds_unheard; assumption.
    - destruct (press_single _ _ _ _ _ _ Hop) as [[-> _]|(ue & outs & -> & Hu & _)].
      { rewrite sent_none in Li. cbn [listened] in Li. assert (s' = s) as -> by congruence. assert (due' = true) as -> by congruence. split; [exact Any|]. right. right. split; [reflexivity|].
        rewrite happened_snoc, app_nil_r. exists h0, e, k, f, pages, ab, sw, qs, st2. auto 12. }
      assert (Nu : ~ In OUb outs) by (apply Forall_inv in So; exact (proj2 So)).
      assert (Quiet : unheard (ue, outs) -> talking s' due' (l ++ [(Press b, [(ue, outs)])]) d').
      { intro Q. rewrite (silent_sent _ [(ue, outs)]) in Li by (constructor; [exact Q|constructor]). cbn [listened] in Li. assert (s' = s) as -> by congruence. assert (due' = true) as -> by congruence.
        split; [exact Any|]. right. right. split; [reflexivity|]. exists h0, e, k, f, pages, ab, sw, (qs ++ [(ue, outs)]), st2. rewrite happened_snoc. split; [rewrite Eh, <- app_assoc; reflexivity|].
        split; [apply Forall_app; split; [exact Fq|constructor; [exact Q|constructor]]|]. split; [exact Ak|]. split; [rewrite screen_unheard by exact Q; exact Sc|]. split; [exact H2|]. split; [exact Cl|exact Ho]. }
      destruct (PropWire.C72_user _ _ _ _ _ _ Henv Hh' Hu) as [-> |[(i & ti & bo & ->)|[-> |(xb & xs & -> & _ & Sn)]]].
      + apply Quiet. split; [exact Hu|]. split; [reflexivity|]. split; [reflexivity|exact Nu].
      + apply Quiet. split; [exact Hu|]. split; [reflexivity|]. split; [reflexivity|exact Nu].
      + destruct Nu. left. reflexivity.
      + rewrite sent_one in Li, NR. destruct NR as [-> NR]; [discriminate|]. cbn [listened fold_left] in Li.
        assert (Ln : l <> []) by (intros ->; destruct h0; discriminate Eh). specialize (NR Ln).
        destruct (proj1 (PropButtons.C66_put E U key l d k f pages Henv H)) as (l1 & l2 & -> & Pu & St); [eauto|].
        assert (Ue : ue = UiApprove \/ ue = UiPathBoth).
        { destruct (PropButtons.C66_decide E U key l1 l2 BOTH _ d d' Henv k f pages Pu St H H' eq_refl) as [(_ & _ & x & t & K)|[(_ & K & _)|[(_ & _ & _ & x & t & K)|(K & _)]]]; [left; congruence|contradiction|right; congruence|congruence]. }
        pose proof Hh' as Hl. apply history_last in Hl as (st0 & Hl & _ & _ & Hst & _). assert (Hl' := Hl). rewrite Eh in Hl'.
        destruct (approved_later E key h0 e k f pages qs st0 ue _ _ _ st2 Henv Hl' Ak Fq Ue Hst eq_refl H2) as [K Kk]. 
        assert (xb = ab) as -> by congruence. assert (xs = sw) as -> by congruence.
        assert (Hn : hold (hears p s (packet_of ab sw)) (happened ((l1 ++ l2) ++ [(Press BOTH, [(ue, [OResp ab sw])])]))).
        { rewrite happened_snoc, Eh, <- app_assoc. apply (Ho qs ue Fq). destruct Ue as [-> | ->]; [left; reflexivity|]. destruct Kk as [Kk|Kk]; [discriminate Kk|]. right. auto. }
        assert (s' = hears p s (packet_of ab sw)) as -> by congruence. assert (due' = false) as -> by congruence. split; [eexists; exact Hn|]. right. left. split; [reflexivity|]. split; [|exact Hn].
        rewrite happened_snoc. exact Sn.
  Qed.
  (** If the pages can be computed, only both buttons are answered. *)
  Lemma talking_both : displayable E (pl_tx p) -> forall s due l d b os d', talking s due l d -> operated E U key l d -> operated E U key (l ++ [(Press b, os)]) d' ->
    answer_packets (Press b, os) <> [] -> b = BOTH.
  Proof.
    intros Dp s due l d b os d' [_ T] H H' Nn. pose proof (operated_history _ _ _ _ _ H) as Hh. pose proof (operated_history _ _ _ _ _ H') as Hh'. rewrite happened_snoc in Hh'.
    assert (Op : press E U d b = (d', os) /\ sound os).
    { pose proof H' as H2. apply operated_last in H2 as (d0 & H0 & _ & Hop & So). assert (d0 = d) as -> by (eapply operated_det; eassumption). split; assumption. } destruct Op as [Hop So].
    destruct T as [T|[(_ & Sc & _)|(_ & h0 & e & k & f & pages & ab & sw & qs & st2 & Eh & Fq & Ak & Sc & H2 & Cl & Ho)]].
    - exfalso. apply Nn. destruct (off_stays _ _ _ _ _ Henv H T _ _ H') as [-> K]. unfold happened in K. cbn [map snd concat] in K. rewrite app_nil_r in K. subst os. apply sent_none.
    - exfalso. apply Nn. apply silent_sent. exact (menu_silent _ _ _ _ _ H Sc Hop).
    - destruct (press_single _ _ _ _ _ _ Hop) as [[-> _]|(ue & outs & -> & Hu & _)]; [exfalso; apply Nn, sent_none|].
      destruct (proj1 (PropButtons.C66_put E U key l d k f pages Henv H)) as (l1 & l2 & -> & Pu & St); [eauto|].
      destruct (answered (Press b, [(ue, outs)])) eqn:An.
      + destruct (PropButtons.C66_decide E U key l1 l2 b _ d d' Henv k f pages Pu St H H' An) as [(K & _)|[(K & _)|[(K & _)|(_ & e1 & s1 & _ & K & _)]]]; try exact K. destruct (Cl Dp _ K).
      + exfalso. destruct (PropWire.C72_user _ _ _ _ _ _ Henv Hh' Hu) as [-> |[(i & ti & bo & ->)|[-> |(xb & xs & -> & _)]]]; [apply Nn; reflexivity|apply Nn; reflexivity|apply Nn; reflexivity|discriminate An].
  Qed.
  Lemma talks_talking : forall tr s due, talks E p tr0 tr s due -> incl tr ALL -> all_answered tr0 -> forall l d, operated E U key l d -> tells_of E U key (tr0 ++ tr) l -> talking s due l d.
  Proof.
    intros tr s due Ta. induction Ta as [|tr s packet r sent shown s' due Ta IH Np Lu Li|tr s due b sent shown s' due' Ta IH NR Li]; intros In0 A l d H T.
    - rewrite app_nil_r in T. assert (Ho : forall h, hold (at_first p) h) by (intro h; exists []; split; reflexivity). split; [exists []; apply Ho|].
      destruct (nothing_asked _ _ _ _ _ _ Henv H T A) as [K|K]; [left; exact K|right; left]. auto.
    - rewrite app_assoc in T. apply told_last in T as (l1 & os & -> & T & Es). cbn [mo_act mo_sent understood] in *. pose proof H as H0. apply operated_last in H0 as (d0 & H0 & _).
      rewrite Es in Li. eapply talking_send; [|exact H0|exact Np|exact Lu|exact H| |exact Li]; [apply IH; [|exact A|exact H0|exact T]; intros x K; apply In0, in_or_app; left; exact K|].
      intros ->. eexists. split; [apply In0, in_or_app; right; left; reflexivity|]. cbn [mo_act]. cbn [next_packet] in Np. congruence.
    - rewrite app_assoc in T. apply told_last in T as (l1 & os & -> & T & Es). cbn [mo_act mo_sent understood] in *. pose proof H as H0. apply operated_last in H0 as (d0 & H0 & _).
      rewrite Es in Li, NR. eapply talking_press; [|exact H0|right; exact I|exact H| |exact Li]; [apply IH; [|exact A|exact H0|exact T]; intros x K; apply In0, in_or_app; left; exact K|].
      intro K. destruct (NR K) as [-> NR']. split; [reflexivity|]. intros Ln Dr. apply NR'. rewrite <- Dr. eapply told_shown; eassumption.
  Qed.
End Run.

(** ** What the wallet ends with *)
Lemma hold_end : forall E key p ALL s h, hold E key p ALL s h -> good_end E p ALL s \/ exists packet, next_packet p s = Some packet.
Proof.
  intros E key p ALL s h H. destruct s as [got [|x todo]|got todo sid frames [|c cmds]|sid [|c cmds]|sig|a]; try (right; eexists; reflexivity).
  - exfalso. destruct H as (_ & dn & x & rest & start & body & _ & _ & _ & _ & [(_ & cs & Cn & K & _)|(_ & is & js & Jn & _ & _ & K)]).
    + symmetry in K. apply app_eq_nil in K as [K _]. contradiction.
    + symmetry in K. apply map_eq_nil in K. contradiction.
  - exfalso. destruct H as (_ & body & r & f & cs & _ & _ & K & _). symmetry in K. apply app_eq_nil in K as [_ K]. discriminate K.
  - left. left. exists sig. split; [reflexivity|]. destruct H as (r & f & (m & M1 & M2) & secret & nonce & (ch & K1) & K3 & K4).
    exists secret, ch, nonce. split; [exact K1|]. split; [exists m, r; auto|exact K4].
  - left. right. destruct H as (-> & r & f & (m & M1 & M2) & secret & nonce & pk & c & (ch & K1) & K3 & K4 & K5 & K6). split; [reflexivity|].
    exists secret, ch, nonce, pk, c. split; [exact K1|]. split; [exists m, r; auto|]. auto.
Qed.
Theorem wallet_safe : forall E U runs key p tr0 tr s due, env_ok E -> lifetime E U runs -> In (key, tr0 ++ tr) runs -> all_answered tr0 -> tx_fits E (pl_tx p) ->
  talks E p tr0 tr s due -> good_end E p tr s \/ exists packet, next_packet p s = Some packet.
Proof.
  intros E U runs key p tr0 tr s due Henv L K A Fit T. destruct (life_told _ _ _ _ _ Henv L K) as (l & d & H & Tl).
  destruct (talks_talking E U key p tr0 tr Henv Fit tr s due T (incl_refl _) A l d H Tl) as [(h & Ho) _]. eapply hold_end. exact Ho.
Qed.

(** No press but both buttons is answered, if the pages can be computed. *)
Theorem wallet_free : forall E U runs key p tr0 tr s due, env_ok E -> lifetime E U runs -> In (key, tr0 ++ tr) runs -> all_answered tr0 -> tx_fits E (pl_tx p) -> displayable E (pl_tx p) ->
  chats E p tr0 tr s due -> talks E p tr0 tr s due.
Proof.
  intros E U runs key p tr0 tr s due Henv L K A Fit Dp C. destruct (life_told _ _ _ _ _ Henv L K) as (l & d & H & Tl). clear L K. revert l d H Tl.
  induction C as [|tr s packet r sent shown s' due C IH Np Lu Li|tr s due b sent shown s' due' C IH Nr Li]; intros l d H Tl.
  - constructor.
  - rewrite app_assoc in Tl. apply told_last in Tl as (l1 & os & -> & T & Es). pose proof H as H0. apply operated_last in H0 as (d0 & H0 & _). eapply talks_send; [exact (IH _ _ H0 T)|exact Np|exact Lu|exact Li].
  - rewrite app_assoc in Tl. apply told_last in Tl as (l1 & os & -> & T & Es). cbn [mo_act mo_sent understood] in *. pose proof H as H0. apply operated_last in H0 as (d0 & H0 & _). pose proof (IH _ _ H0 T) as Ta.
    eapply talks_press; [exact Ta| |exact Li]. intro Ns. rewrite Es in Ns.
    assert (b = BOTH) as -> by (eapply (talking_both E U key p tr); [exact Henv|exact Dp|apply (talks_talking E U key p tr0 tr Henv Fit tr s due Ta (incl_refl _) A l1 d0 H0 T)|exact H0|exact H|exact Ns]).
    split; [reflexivity|]. intro K. apply Nr. auto.
Qed.

(** ** Going on *)
Lemma send_back : forall o outs io, In (Screen o) (snd (send_all outs io)) -> In o outs.
Proof.
  intros o. induction outs as [|x t IH]; intros io K; [destruct K|]. destruct x; cbn [send_all] in K.
  1: { destruct (io_send data s io) as [io1 pk]. specialize (IH io1). destruct (send_all t io1). cbn [snd] in *. destruct K as [K|K]; [discriminate K|right; exact (IH K)]. }
  all: specialize (IH io); destruct (send_all t io); cbn [snd] in *; destruct K as [K|K]; [left; congruence|right; exact (IH K)].
Qed.
Lemma goes_shown : forall E U w0 tr w x, goes_on E U w0 tr w -> shown_last tr x -> x = displayed (wh_dev w).
Proof. intros E U w0 tr w x G (tr0 & m & Et & <-). destruct G as [|tr1 w1 a w' l G Ha Hs N1 N2]; [destruct tr0; discriminate Et|]. apply app_inj_tail in Et as [_ <-]. reflexivity. Qed.
Lemma approve_press : forall E U key l l' d k f pages q, env_ok E -> put l k f pages -> still l' -> operated E U key (l ++ l') d -> displayed d = Some (C_APPROVE, q) ->
  press E U d BOTH = fire E d UiApprove (P_AT 0 0).
Proof.
  intros E U key l l' d k f pages q Henv Hput Hs H Dp.
  destruct (question_run _ _ _ _ _ _ _ _ _ Henv Hput H Hs) as ((e0 & Ho) & i & n & p & bs0 & St & Tu & Pl).
  destruct (shown_cell _ _ _ Dp) as (j & [A|A] & C); [intros j; destruct Pl as [[Pl _]|(Pl & _)]; congruence| |].
  - unfold press. rewrite A, C. cbn [extra]. rewrite (proj2 (Nat.ltb_ge q 0)) by lia. cbn [andb]. unfold validate. rewrite (card_approve _ _ C). reflexivity.
  - exfalso. destruct Pl as [[Pl _]|(Pl & _ & _ & t & x & Pc)]; [congruence|]. rewrite A in Pl. injection Pl as -> ->. rewrite Pc in C. cbn in C. congruence.
Qed.

Section On.
  Variables (E : env) (U : ux) (mem : state) (page : text * text) (io key : bytes).
  Hypothesis Henv : env_ok E.
  Hypothesis Hio : blen io = 260.
  Notation w0 := (power_on mem page io key).
  (** A run, and the run of SpecButtons it tells of. *)
  Definition in_step (tr : list moment) (w : whole) (l : list deed) (d : device) : Prop :=
    goes_on E U w0 tr w /\ operated E U key l d /\ akin (wh_dev w) d /\ tells_of E U key tr l.
  Lemma advance : forall tr w l d a d1 os, in_step tr w l d -> act_ok a -> operate E U (wh_dev w) (understood a) = (d1, os) -> sound os ->
    exists w' d', wh_dev w' = d1 /\ in_step (tr ++ [mk_moment a (answer_packets (understood a, os)) (displayed d1)]) w' (l ++ [(understood a, os)]) d'.
  Proof.
    intros tr w l d a d1 os (G & O & A & T) Ha Ho So. destruct (run_told _ _ _ _ _ _ _ _ Henv Hio G) as (_ & _ & _ & _ & Lio & _).
    destruct (whole_step E U w a) as [w' lw] eqn:Hs. destruct (whole_operate _ _ _ _ _ _ Ha Lio Hs) as (os' & io0 & L0 & Ho' & Hsend).
    assert (d1 = wh_dev w') as -> by congruence. assert (os' = os) as -> by congruence.
    assert (No : forall o, In (Screen o) lw -> exists x, In x os /\ In o (snd x)).
    { intros o K. assert (K1 : In (Screen o) (snd (send_all (concat (map snd os)) io0))) by (rewrite Hsend; exact K). apply send_back in K1.
      apply in_concat in K1 as (z & Hz & K1). apply in_map_iff in Hz as (x & <- & Hx). eauto. }
    assert (G' : goes_on E U w0 (tr ++ [mk_moment a (SpecWhole.packets lw) (displayed (wh_dev w'))]) w').
    { eapply goes_on_more; [exact G|exact Ha|exact Hs| |]; intros K; destruct (No _ K) as (x & Hx & Kx); [exact (proj1 (proj1 (Forall_forall _ _) So _ Hx) Kx)|exact (proj2 (proj1 (Forall_forall _ _) So _ Hx) Kx)]. }
    destruct (run_told _ _ _ _ _ _ _ _ Henv Hio G') as (l' & d' & O' & A' & _ & T'). destruct (told_last _ _ _ _ _ _ T') as (l1 & os1 & -> & T1 & Es). cbn [mo_act mo_sent] in *.
    destruct (operated_last _ _ _ _ _ _ _ O') as (d0 & O1 & _ & Ho1 & _).
    assert (l1 = l) as -> by (eapply operated_unique; [exact O1|exact O|]; destruct T as (T & _), T1 as (T1 & _); congruence).
    assert (d0 = d) as -> by (eapply operated_det; eassumption).
    destruct (operate_akin E U key (happened l) (wh_dev w) d (understood a) _ os Henv (operated_history _ _ _ _ _ O) A (understood_ok _ Ha) Ho So) as (d2 & Ho2 & A2).
    assert (os1 = os) as -> by congruence. rewrite Es in G', T'. exists w', d'. split; [reflexivity|]. split; [exact G'|]. split; [exact O'|]. split; [exact A'|exact T'].
  Qed.
  (** What the device of SpecButtons does with a question before it, this one does. *)
  Lemma follow_one : forall tr w l d b d' os, in_step tr w l d -> st_busy (dv_st d) = true -> operated E U key (l ++ [(Press b, os)]) d' ->
    exists w', in_step (tr ++ [mk_moment (Presses b) (answer_packets (Press b, os)) (displayed (wh_dev w'))]) w' (l ++ [(Press b, os)]) d'.
  Proof.
    intros tr w l d b d' os S B H'. pose proof S as (G & O & A & T). pose proof H' as H2. apply operated_last in H2 as (d0 & H0 & _ & Hop & So). assert (d0 = d) as -> by (eapply operated_det; eassumption).
    assert (Es : dv_st (wh_dev w) = dv_st d) by (apply near_busy; [apply akin_near; exact A|exact B]).
    assert (Hh : history E key (happened l) (dv_st (wh_dev w))) by (rewrite Es; exact (operated_history _ _ _ _ _ O)).
    destruct (operate_akin E U key (happened l) d (wh_dev w) (Press b) d' os Henv Hh (akin_sym _ _ A) I Hop So) as (d1 & Hw & _).
    destruct (advance tr w l d (Presses b) d1 os S I Hw So) as (w' & d2 & W' & S'). cbn [understood] in S'. exists w'. rewrite W'.
    assert (d2 = d') as <- by (destruct S' as (_ & O' & _); eapply operated_det; eassumption). exact S'.
  Qed.
  Lemma follow : forall k f pages l1 l2 tr w l' d d2, put l1 k f pages -> still l' -> in_step tr w (l1 ++ l') d -> operated E U key ((l1 ++ l') ++ l2) d2 ->
    Forall (fun x => fst x = Press RIGHT /\ answered x = false) l2 ->
    exists tr2 w2, in_step (tr ++ tr2) w2 ((l1 ++ l') ++ l2) d2 /\ Forall (fun m => mo_act m = Presses RIGHT /\ mo_sent m = []) tr2.
  Proof.
    intros k f pages l1 l2. induction l2 as [|[a os] l2 IH] using rev_ind; intros tr w l' d d2 Pu St S H2 F.
    - exists [], w. rewrite !app_nil_r in *. assert (d2 = d) as -> by (destruct S as (_ & O & _); eapply operated_det; eassumption). split; [exact S|constructor].
    - apply Forall_app in F as [F Fa]. apply Forall_inv in Fa as [Ea An]. cbn [fst] in Ea. subst a. rewrite app_assoc in H2. pose proof H2 as H3. apply operated_last in H3 as (d1 & H1 & _).
      destruct (IH tr w l' d d1 Pu St S H1 F) as (tr2 & w2 & S2 & F2).
      assert (St2 : still (l' ++ l2)). { unfold still in *. apply Forall_app. split; [exact St|]. eapply Forall_impl; [|exact F]. intros [a' os'] [E1 E2]. cbn [fst] in E1. subst a'. exact E2. }
      assert (B : st_busy (dv_st d1) = true).
      { destruct (proj2 (PropButtons.C66_put E U key _ d1 k f pages Henv H1)) as (q & Q); [exists l1, (l' ++ l2); split; [rewrite app_assoc; reflexivity|split; [exact Pu|exact St2]]|].
        eapply screen_busy; [exact Henv|exact (operated_history _ _ _ _ _ H1)|exact Q]. }
      destruct (follow_one _ _ _ _ _ _ _ S2 B H2) as (w3 & S3). eexists (tr2 ++ [_]), w3. rewrite !app_assoc. split; [exact S3|]. apply Forall_app. split; [exact F2|]. constructor; [|constructor]. cbn [mo_act mo_sent]. split; [reflexivity|].
      destruct (press_single E U d1 RIGHT d2 os) as [[-> _]|(ue & outs & -> & Hu & _)].
      { apply operated_last in H2 as (d0 & H0 & _ & Hop & _). assert (d0 = d1) as -> by (eapply operated_det; eassumption). exact Hop. }
      { reflexivity. }
      pose proof (operated_history _ _ _ _ _ H2) as Hh2. rewrite happened_snoc in Hh2.
      destruct (PropWire.C72_user _ _ _ _ _ _ Henv Hh2 Hu) as [-> |[(i & ti & bo & ->)|[-> |(xb & xs & -> & _)]]]; try reflexivity. discriminate An.
  Qed.
  (** Left, left, both: from the first card of a question to Approve, and approving it. *)
  Lemma left_left : forall st pg body, st_flow st = body ++ [SC_APPROVE; SC_REJECT; SC_LOOP; SC_END] ->
    press E U (mk_device st pg (P_AT 0 0)) LEFT = (mk_device st pg (P_AT (S (length body)) 0), []) /\
    press E U (mk_device st pg (P_AT (S (length body)) 0)) LEFT = (mk_device st pg (P_AT (length body) 0), []) /\
    displayed (mk_device st pg (P_AT (length body) 0)) = Some (C_APPROVE, O) /\
    press E U (mk_device st pg (P_AT (length body) 0)) BOTH = fire E (mk_device st pg (P_AT (length body) 0)) UiApprove (P_AT 0 0).
  Proof.
    intros st pg body F. assert (C : forall n, (n < 4)%nat -> cell st (length body + n) = nth n [SC_APPROVE; SC_REJECT; SC_LOOP; SC_END] SC_END).
    { intros n Hn. unfold cell. rewrite F, app_nth2 by lia. f_equal. lia. }
    assert (C0 : cell st (length body) = SC_APPROVE) by (rewrite <- (Nat.add_0_r (length body)); apply (C 0%nat); lia).
    assert (C1 : cell st (S (length body)) = SC_REJECT) by (rewrite <- Nat.add_1_r; apply (C 1%nat); lia).
    assert (C2 : cell st (length (st_flow st) - 2) = SC_LOOP) by (rewrite F, app_length; cbn [length]; replace (length body + 4 - 2)%nat with (length body + 2)%nat by lia; apply (C 2%nat); lia).
    split; [|split; [|split]].
    - unfold press. cbn [dv_at]. unfold flow_prev. cbn [dv_st dv_page]. cbv zeta. rewrite C2. replace (length (st_flow st) - 3)%nat with (S (length body)) by (rewrite F, app_length; cbn [length]; lia).
      unfold arrive. rewrite C1. reflexivity.
    - unfold press. cbn [dv_at]. unfold flow_prev. cbn [dv_st dv_page]. unfold arrive. rewrite C0. unfold land. rewrite C0. reflexivity.
    - unfold displayed. cbn [dv_at dv_st dv_page]. rewrite C0. reflexivity.
    - unfold press. cbn [dv_at dv_st dv_page]. rewrite C0. cbn [card_of extra]. change (Nat.ltb 0 0) with false. cbn [andb]. unfold validate. cbn [dv_st]. rewrite C0. reflexivity.
  Qed.

  Variables (p : plan) (tr0 : list moment).
  Hypothesis Fit : tx_fits E (pl_tx p).
  Hypothesis All : all_answered tr0.
  Definition good (tr : list moment) (w : whole) (s : wallet) : Prop :=
    goes_on E U w0 (tr0 ++ tr) w /\ talks E p tr0 tr s false /\ displayed (wh_dev w) <> None.
  Lemma placed : forall l d, operated E U key l d -> dv_at d <> P_OFF -> displayed d <> None.
  Proof. intros l d H K D. destruct (shown_or_off _ _ _ _ _ Henv H D) as [K' _]. contradiction. Qed.
  Lemma exchange : forall tr w s packet r, good tr w s -> next_packet p s = Some packet -> lucky E p s r -> act_ok (Arrives packet r) ->
    exists tr' w' pk, good (tr ++ tr') w' (hears p s pk).
  Proof.
    intros tr w s packet r (G & Ta & Dw) Np Lu Ha. destruct (run_told _ _ _ _ _ _ _ _ Henv Hio G) as (l & d & O & A & _ & T).
    pose proof (operated_history _ _ _ _ _ O) as Hh. pose proof (akin_displayed _ _ _ _ _ Henv Hh A) as Ds.
    set (ALL := tr ++ [mk_moment (Arrives packet r) [] None]).
    destruct (talks_talking E U key p tr0 ALL Henv Fit tr s false Ta (fun x K => in_or_app _ _ _ (or_introl K)) All l d O T) as [_ [K|[(_ & Sc & Ho)|(K & _)]]]; [congruence| |discriminate K].
    destruct (understood_ok _ Ha) as [Hu Hev]. cbn [understood] in Hu, Hev. set (e := command_of packet r) in *.
    assert (HR : s = WA_OPEN (map (frames_of E key) (w_inputs (pl_tx p))) [] -> opened_with p ALL r).
    { intros ->. eexists. split; [apply in_or_app; right; left; reflexivity|]. cbn [mo_act]. cbn [next_packet] in Np. congruence. }
    destruct (answers_well E key p Henv Fit (opened_with p ALL) s (happened l) _ r e Ho Hh Sc (next_heard p s packet r Np) Hev Lu HR) as (outs & st1 & H1 & Cs). fold e in Cs.
    pose proof H1 as H1'. apply history_last in H1' as (st0 & H0 & _ & _ & Hst & _). assert (st0 = dv_st d) as -> by (eapply SessionProofs.history_fun; [exact H0|exact Hh]).
    assert (Off : dv_at (wh_dev w) <> P_OFF) by (intro K; apply Dw; unfold displayed; rewrite K; reflexivity).
    assert (So : sound [(e, outs)]).
    { constructor; [|constructor]. cbn [snd]. destruct Cs as [(b & -> & _)|(k & f & pages & b & sw & st2 & -> & _)]; split; intros [K|[]]; discriminate K. }
    destruct (receive E (wh_dev w) e) as [d1 os] eqn:Rc. destruct (receive_shape _ _ _ _ _ Rc) as [(K & _)|(outs1 & _ & -> & Hst1 & _ & At1)]; [contradiction|].
    destruct (step_near E _ _ e (akin_near _ _ A)) as [Eo _]. rewrite Hst, Hst1 in Eo. cbn [snd] in Eo. subst outs1.
    destruct (advance (tr0 ++ tr) w l d (Arrives packet r) d1 [(e, outs)] (conj G (conj O (conj A T))) Ha Rc So) as (w1 & d1' & W1 & (G1 & O1 & A1 & T1)). cbn [understood] in *. fold e in G1, O1, T1.
    rewrite <- app_assoc in G1.
    destruct Cs as [(b & -> & _)|(k & f & pages & b & sw & st2 & -> & Ak & H2 & _)].
    - rewrite sent_one in G1. exists [mk_moment (Arrives packet r) [packet_of b SW_OK] (displayed d1)], w1, (packet_of b SW_OK). split; [exact G1|]. split.
      + eapply talks_send; [exact Ta|exact Np|exact Lu|reflexivity].
      + rewrite (akin_displayed _ _ _ _ _ Henv (operated_history _ _ _ _ _ O1) A1). apply (placed _ _ O1). rewrite <- (akin_at _ _ A1), W1, At1. cbn [shown_by].
        unfold kept. destruct (dv_at (wh_dev w)); try congruence. destruct (screen_dec _ _); [discriminate|]. destruct (card_of _ _); discriminate.
    - change (answer_packets (Host e, [(e, [OShow k f pages])])) with (@nil bytes) in *. cbn [shown_by] in At1.
      assert (Ta1 : talks E p tr0 (tr ++ [mk_moment (Arrives packet r) [] (displayed d1)]) s true) by (eapply talks_send; [exact Ta|exact Np|exact Lu|reflexivity]).
      set (tr1 := tr ++ [mk_moment (Arrives packet r) [] (displayed d1)]) in *.
      (* the table of screens *)
      pose proof (operated_history _ _ _ _ _ O1) as Hh1. assert (Sc1 : on_screen (happened (l ++ [(Host e, [(e, [OShow k f pages])])])) = Some (e, k, f, pages)) by (rewrite happened_snoc, on_screen_snoc; reflexivity).
      destruct (flow_form _ _ _ _ _ _ _ _ Henv Hh1 Sc1) as (body & Ef & _). destruct (screen_state _ _ _ _ _ _ _ _ Henv Hh1 Sc1) as (_ & _ & Fl & _). rewrite Ef in Fl.
      destruct d1 as [st1w pg1 at1]. cbn [dv_at dv_st] in *. subst at1.
      assert (Flw : st_flow st1w = body ++ [SC_APPROVE; SC_REJECT; SC_LOOP; SC_END]) by (rewrite <- Fl; rewrite <- (near_flow _ _ (akin_near _ _ A1)), W1; reflexivity).
      destruct (left_left st1w pg1 body Flw) as (P1 & P2 & P3 & P4).
      destruct (advance _ _ _ _ (Presses LEFT) (mk_device st1w pg1 (P_AT (S (length body)) 0)) [] (conj G1 (conj O1 (conj A1 ltac:(rewrite <- app_assoc in T1; exact T1)))) I ltac:(rewrite W1; exact P1) ltac:(constructor)) as (w2 & d2 & W2 & (G2 & O2 & A2 & T2)).
      destruct (advance _ _ _ _ (Presses LEFT) (mk_device st1w pg1 (P_AT (length body) 0)) [] (conj G2 (conj O2 (conj A2 T2))) I ltac:(rewrite W2; exact P2) ltac:(constructor)) as (w3 & d3 & W3 & (G3 & O3 & A3 & T3)).
      cbn [understood] in *. rewrite sent_none in *.
      assert (Hap : snd (step E st1w UiApprove) = [OResp b sw]).
      { rewrite cons_app3 in H2 by exact Fit. apply history_last in H2 as (st3 & H3 & _ & _ & Hst3 & _). rewrite happened_snoc in Hh1.
        assert (st3 = dv_st d1') as -> by (eapply SessionProofs.history_fun; [exact H3|exact Hh1]).
        destruct (step_near E _ _ UiApprove (akin_near _ _ A1)) as [Eo _]. rewrite Hst3, W1 in Eo. exact Eo. }
      unfold fire in P4. cbn [dv_st dv_page] in P4. destruct (step E st1w UiApprove) as [st4 o4]. cbn [snd] in Hap. subst o4.
      destruct (advance _ _ _ _ (Presses BOTH) (mk_device st4 pg1 (P_AT 0 0)) [(UiApprove, [OResp b sw])] (conj G3 (conj O3 (conj A3 T3))) I ltac:(rewrite W3; exact P4)) as (w4 & d4 & W4 & (G4 & O4 & A4 & T4)).
      { constructor; [|constructor]. cbn [snd]. split; intros [K|[]]; discriminate K. }
      cbn [understood] in *. rewrite sent_one in *. rewrite <- !app_assoc in G4.
      set (m1 := mk_moment (Presses LEFT) [] (displayed (mk_device st1w pg1 (P_AT (S (length body)) 0)))) in *. set (m2 := mk_moment (Presses LEFT) [] (displayed (mk_device st1w pg1 (P_AT (length body) 0)))) in *.
      set (m3 := mk_moment (Presses BOTH) [packet_of b sw] (displayed (mk_device st4 pg1 (P_AT 0 0)))) in *.
      exists ([mk_moment (Arrives packet r) [] (displayed (mk_device st1w pg1 (P_AT 0 0)))] ++ [m1] ++ [m2] ++ [m3]), w4, (packet_of b sw). split; [|split].
      + unfold tr1 in G4. rewrite <- !app_assoc in G4. exact G4.
      + rewrite !app_assoc. fold tr1.
        assert (Ta2 : talks E p tr0 (tr1 ++ [m1]) s true) by (eapply talks_press; [exact Ta1|intro K; destruct K; reflexivity|reflexivity]).
        assert (Ta3 : talks E p tr0 ((tr1 ++ [m1]) ++ [m2]) s true) by (eapply talks_press; [exact Ta2|intro K; destruct K; reflexivity|reflexivity]).
        eapply talks_press; [exact Ta3| |reflexivity]. intros _. split; [reflexivity|]. intros (tr' & m & K & Km). rewrite !app_assoc in K. apply app_inj_tail in K as [_ <-].
        unfold m2 in Km. cbn [mo_shown] in Km. rewrite P3 in Km. discriminate Km.
      + rewrite (akin_displayed _ _ _ _ _ Henv (operated_history _ _ _ _ _ O4) A4). apply (placed _ _ O4). rewrite <- (akin_at _ _ A4), W4. discriminate.
  Qed.

  (** A question is open: right until Approve is displayed, then both. *)
  Lemma settle : displayable E (pl_tx p) -> forall tr w s, goes_on E U w0 (tr0 ++ tr) w -> talks E p tr0 tr s true -> displayed (wh_dev w) <> None ->
    exists tr' w' s', good (tr ++ tr') w' s'.
  Proof.
    intros Dp tr w s G Ta Dw. destruct (run_told _ _ _ _ _ _ _ _ Henv Hio G) as (l & d & O & A & _ & T).
    pose proof (operated_history _ _ _ _ _ O) as Hh. pose proof (akin_displayed _ _ _ _ _ Henv Hh A) as Ds.
    destruct (talks_talking E U key p tr0 tr Henv Fit tr s true Ta (incl_refl _) All l d O T) as [_ [K|[(K & _)|(_ & h0 & e & k & f & pages & ab & sw & qs & st2 & Eh & Fq & Ak & Sc & H2 & Cl & _)]]]; [congruence|discriminate K|].
    destruct (proj1 (PropButtons.C66_put E U key l d k f pages Henv O)) as (l1 & l2 & El & Pu & St); [eauto|]. rewrite El in *. clear El l.
    assert (Nd : ~ dead E U d).
    { intro Dd. destruct (dead_dead _ _ _ _ _ _ _ _ _ Henv Pu O St Dd) as (i & q & Pd). destruct (question_run _ _ _ _ _ _ _ _ _ Henv Pu O St) as (_ & i' & n' & p' & bs0 & _ & _ & Pl).
      destruct Pl as [[Pl _]|(_ & [-> | ->] & _)]; [congruence|unfold asking_kind in Ak; intuition discriminate..]. }
    destruct (flow_form _ _ _ _ _ _ _ _ Henv Hh Sc) as (body & Ef & _).
    assert (Hc : In (Some C_APPROVE) (cards f pages)) by (rewrite Ef; unfold cards; rewrite flat_map_app; apply in_or_app; right; left; reflexivity).
    apply In_nth_error in Hc as (n & Hn).
    destruct (reach E U key l1 l2 d k f pages n C_APPROVE Henv Pu St O (Cl Dp) Nd Hn) as (l3 & d3 & q & O3 & _ & F3 & D3).
    destruct (follow k f pages l1 l3 _ _ l2 d d3 Pu St (conj G (conj O (conj A T))) O3 F3) as (tr2 & w3 & S3 & F2).
    assert (St3 : still (l2 ++ l3)). { unfold still in *. apply Forall_app. split; [exact St|]. eapply Forall_impl; [|exact F3]. intros [a' os'] [E1 E2]. cbn [fst] in E1. subst a'. exact E2. }
    rewrite <- app_assoc in O3. rewrite <- (app_assoc l1 l2 l3) in S3. rewrite <- app_assoc in S3.
    assert (Ta2 : talks E p tr0 (tr ++ tr2) s true).
    { clear -Ta F2. induction tr2 as [|[ac se sh] tr2 IH] using rev_ind; [rewrite app_nil_r; exact Ta|]. apply Forall_app in F2 as [F2 Fm]. apply Forall_inv in Fm as [Ea Es]. cbn [mo_act mo_sent] in Ea, Es. subst ac se.
      rewrite app_assoc. eapply talks_press; [exact (IH F2)|intro K; destruct K; reflexivity|reflexivity]. }
    pose proof (approve_press _ _ _ _ _ _ _ _ _ _ Henv Pu St3 O3 D3) as Pr. destruct (acts _ _ _ _ _ _ _ _ _ Henv Pu St3 O3) as [Ac _]. destruct (Ac _ D3) as (x & xs & Os). rewrite Pr in Os.
    destruct (fire E d3 UiApprove (P_AT 0 0)) as [d4 os4] eqn:Fi. cbn [snd] in Os. subst os4.
    assert (At4 : dv_at d4 = P_AT 0 0) by (unfold fire in Fi; destruct (step E (dv_st d3) UiApprove); injection Fi as <- _; reflexivity).
    assert (O4 : operated E U key ((l1 ++ l2 ++ l3) ++ [(Press BOTH, [(UiApprove, [OResp x xs])])]) d4).
    { eapply operated_more; [exact O3|exact I|exact Pr|]. constructor; [|constructor]. cbn [snd]. split; intros [K|[]]; discriminate K. }
    assert (B3 : st_busy (dv_st d3) = true).
    { destruct (question_run _ _ _ _ _ _ _ _ _ Henv Pu O3 St3) as ((e0 & Q) & _). eapply screen_busy; [exact Henv|exact (operated_history _ _ _ _ _ O3)|exact Q]. }
    destruct (follow_one _ _ _ _ _ _ _ S3 B3 O4) as (w4 & (G4 & _ & A4 & _)). rewrite sent_one in G4. rewrite <- !app_assoc in G4.
    exists (tr2 ++ [mk_moment (Presses BOTH) [packet_of x xs] (displayed (wh_dev w4))]), w4, (hears p s (packet_of x xs)). split; [exact G4|]. split.
    - rewrite app_assoc. eapply talks_press; [exact Ta2| |reflexivity]. intros _. split; [reflexivity|]. intro K. destruct S3 as (G3 & O3' & A3 & _).
      apply (goes_shown _ _ _ _ _ _ G3) in K. rewrite (akin_displayed _ _ _ _ _ Henv (operated_history _ _ _ _ _ O3) A3), D3 in K. discriminate K.
    - rewrite (akin_displayed _ _ _ _ _ Henv (operated_history _ _ _ _ _ O4) A4). apply (placed _ _ O4). rewrite At4. discriminate.
  Qed.

  Variable r : rnd.
  Hypothesis Ro : act_ok (Arrives (opening p) r).
  Hypothesis Rq : sign_request_ok E (pl_p2 p) (pl_start p) r.
  Definition ended (s : wallet) : Prop := match s with WA_SIGNED _ | WA_FAILED _ => True | _ => False end.
  Lemma hears_cases : forall s pk, hears p s pk = WA_FAILED pk \/ exists b, hears p s pk = heard_ok p s b.
  Proof. intros s pk. unfold hears. destruct (bytes_eqb _ _); [right; eexists; reflexivity|left; reflexivity]. Qed.
  Lemma speak_ok : forall ins p1 p2 data, ins < 256 -> p1 < 256 -> p2 < 256 -> bytes_ok data = true -> (length data <= 255)%nat -> act_ok (Arrives (speak ins p1 p2 data) r).
  Proof.
    intros ins p1 p2 data A B C D F. destruct Ro as (_ & _ & R1 & R2). unfold act_ok, wire_ok. split; [|split; [|split; assumption]].
    - unfold speak. repeat (apply bytes_ok_cons; split; [first [assumption | reflexivity | unfold blen; lia]|]). exact D.
    - unfold speak, blen. cbn [length]. lia.
  Qed.
  Lemma good_hold : forall tr w s, good tr w s -> exists h, hold E key p tr s h.
  Proof.
    intros tr w s (G & Ta & _). destruct (run_told _ _ _ _ _ _ _ _ Henv Hio G) as (l & d & O & _ & _ & T).
    destruct (talks_talking E U key p tr0 tr Henv Fit tr s false Ta (incl_refl _) All l d O T) as [K _]. exact K.
  Qed.
  Lemma sign_ends : forall cmds sid tr w, cmds <> [] -> good tr w (WA_SIGN sid cmds) -> exists tr' w' s', good (tr ++ tr') w' s' /\ ended s'.
  Proof.
    induction cmds as [|c cmds IH]; intros sid tr w N0 G; [congruence|]. destruct (good_hold _ _ _ G) as (h & (Ls & Sy) & _). apply Forall_inv in Sy as (S1 & S2 & S3).
    destruct (exchange _ _ _ _ r G eq_refl I (speak_ok INS_SIGN _ _ _ eq_refl S1 Ls S2 S3)) as (tr1 & w1 & pk & G1).
    destruct (hears_cases (WA_SIGN sid (c :: cmds)) pk) as [K|(b & K)]; rewrite K in G1.
    - exists tr1, w1. eexists. split; [exact G1|exact I].
    - cbn [heard_ok] in G1. destruct cmds as [|c' cmds]; [exists tr1, w1; eexists; split; [exact G1|exact I]|].
      destruct (IH sid (tr ++ tr1) w1 ltac:(discriminate) G1) as (tr2 & w2 & s2 & G2 & E2). exists (tr1 ++ tr2), w2, s2. rewrite app_assoc. split; assumption.
  Qed.
  Lemma attest_ends : forall cmds got todo sid frames tr w, cmds <> [] -> good tr w (WA_ATTEST got todo sid frames cmds) ->
    exists tr' w' s', good (tr ++ tr') w' s' /\ (ended s' \/ exists got', s' = WA_OPEN got' (tl todo)).
  Proof.
    induction cmds as [|c cmds IH]; intros got todo sid frames tr w N0 G; [congruence|]. destruct (good_hold _ _ _ G) as (h & (Ls & Sy) & _). apply Forall_inv in Sy as (S1 & S2 & S3).
    destruct (exchange _ _ _ _ r G eq_refl I (speak_ok INS_ATTEST _ _ _ eq_refl S1 Ls S2 S3)) as (tr1 & w1 & pk & G1).
    destruct (hears_cases (WA_ATTEST got todo sid frames (c :: cmds)) pk) as [K|(b & K)]; rewrite K in G1.
    - exists tr1, w1. eexists. split; [exact G1|left; exact I].
    - cbn [heard_ok] in G1. destruct cmds as [|c' cmds]; [exists tr1, w1; eexists; split; [exact G1|right; eexists; reflexivity]|].
      destruct (IH _ _ _ _ (tr ++ tr1) w1 ltac:(discriminate) G1) as (tr2 & w2 & s2 & G2 & E2). exists (tr1 ++ tr2), w2, s2. rewrite app_assoc. split; assumption.
  Qed.
  Lemma open_ends : forall todo got tr w, good tr w (WA_OPEN got todo) -> exists tr' w' s', good (tr ++ tr') w' s' /\ ended s'.
  Proof.
    induction todo as [|x todo IH]; intros got tr w G.
    - destruct (exchange _ _ _ _ r G eq_refl Rq Ro) as (tr1 & w1 & pk & G1). destruct (hears_cases (WA_OPEN got []) pk) as [K|(b & K)]; rewrite K in G1.
      + exists tr1, w1. eexists. split; [exact G1|exact I].
      + cbn [heard_ok] in G1. assert (Nn : wallet_commands (pl_tx p) got ++ [(0x20, [])] <> []) by (intro Q; apply app_eq_nil in Q as [_ Q]; discriminate Q).
        destruct (sign_ends _ _ (tr ++ tr1) w1 Nn G1) as (tr2 & w2 & s2 & G2 & E2).
        exists (tr1 ++ tr2), w2, s2. rewrite app_assoc. split; assumption.
    - destruct (good_hold _ _ _ G) as (h & dn & D1 & _). destruct (input_in E p Fit _ _ _ D1) as [Fb _]. pose proof Fb as ((F1 & F2) & _).
      assert (Id : id_drawn r) by (destruct Rq as (_ & _ & _ & _ & _ & _ & _ & _ & K); exact K).
      assert (Hh : (length (box_header (fst x)) <= 255)%nat /\ bytes_ok (box_header (fst x)) = true).
      { unfold box_header. split; [rewrite !app_length, !be_bytes_length, F1; lia|]. rewrite !bytes_ok_app, !be_bytes_ok, F2. reflexivity. }
      destruct (exchange _ _ _ _ r G eq_refl Id (speak_ok INS_ATTEST 1 1 _ eq_refl eq_refl eq_refl (proj2 Hh) (proj1 Hh))) as (tr1 & w1 & pk & G1).
      destruct (hears_cases (WA_OPEN got (x :: todo)) pk) as [K|(b & K)]; rewrite K in G1.
      + exists tr1, w1. eexists. split; [exact G1|exact I].
      + cbn [heard_ok] in G1. assert (Nn : box_commands (fst x) ++ map ask_frame (frame_numbers (fst x)) <> []).
        { intro Q. apply app_eq_nil in Q as [Q _]. destruct (box_subs (fst x) Fb) as [_ B]. contradiction. }
        destruct (attest_ends _ _ _ _ _ (tr ++ tr1) w1 Nn G1) as (tr2 & w2 & s2 & G2 & [E2|(got' & ->)]).
        * exists (tr1 ++ tr2), w2, s2. rewrite app_assoc. split; assumption.
        * cbn [tl] in G2. destruct (IH got' _ w2 G2) as (tr3 & w3 & s3 & G3 & E3). exists (tr1 ++ tr2 ++ tr3), w3, s3. rewrite !app_assoc. split; assumption.
  Qed.
  Lemma good_ends : forall tr w s, good tr w s -> exists tr' w' s', good (tr ++ tr') w' s' /\ good_end E p (tr ++ tr') s'.
  Proof.
    intros tr w s G.
    assert (K : exists tr' w' s', good (tr ++ tr') w' s' /\ ended s').
    { destruct s as [got todo|got todo sid frames cmds|sid cmds|sig|a].
      - eapply open_ends. exact G.
      - destruct cmds as [|c cmds]; [exfalso; destruct (good_hold _ _ _ G) as (h & K); apply hold_end in K as [[(sig & K & _)|(K & _)]|(pk & K)]; discriminate K|].
        assert (Nn : c :: cmds <> []) by discriminate.
        destruct (attest_ends _ _ _ _ _ tr w Nn G) as (tr2 & w2 & s2 & G2 & [E2|(got' & ->)]); [exists tr2, w2, s2; split; assumption|].
        destruct (open_ends _ _ _ _ G2) as (tr3 & w3 & s3 & G3 & E3). exists (tr2 ++ tr3), w3, s3. rewrite app_assoc. split; assumption.
      - destruct cmds as [|c cmds]; [exfalso; destruct (good_hold _ _ _ G) as (h & K); apply hold_end in K as [[(sig & K & _)|(K & _)]|(pk & K)]; discriminate K|].
        apply (sign_ends (c :: cmds) sid tr w); [discriminate|exact G].
      - exists [], w, (WA_SIGNED sig). rewrite app_nil_r. split; [exact G|exact I].
      - exists [], w, (WA_FAILED a). rewrite app_nil_r. split; [exact G|exact I]. }
    destruct K as (tr' & w' & s' & G' & E'). exists tr', w', s'. split; [exact G'|]. destruct (good_hold _ _ _ G') as (h & K). apply hold_end in K as [K|(pk & K)]; [exact K|].
    destruct s'; try destruct E'; discriminate K.
  Qed.
End On.
Lemma wallet_reaches : forall E U mem page io key p tr0 tr w s due r, env_ok E -> blen io = 260 -> tx_fits E (pl_tx p) -> goes_on E U (power_on mem page io key) (tr0 ++ tr) w ->
  all_answered tr0 -> talks E p tr0 tr s due -> (due = true -> displayable E (pl_tx p)) -> displayed (wh_dev w) <> None ->
  act_ok (Arrives (opening p) r) -> sign_request_ok E (pl_p2 p) (pl_start p) r ->
  exists tr' w' s', goes_on E U (power_on mem page io key) (tr0 ++ tr ++ tr') w' /\ talks E p tr0 (tr ++ tr') s' false /\ good_end E p (tr ++ tr') s'.
Proof.
  intros E U mem page io key p tr0 tr w s due r He Hio Fit G A T Dp D Ro Rq.
  assert (K : exists tr1 w1 s1, good E U mem page io key p tr0 (tr ++ tr1) w1 s1).
  { destruct due; [eapply settle; eauto|]. exists [], w, s. rewrite app_nil_r. exact (conj G (conj T D)). }
  destruct K as (tr1 & w1 & s1 & K1).
  destruct (good_ends E U mem page io key He Hio p tr0 Fit A r Ro Rq (tr ++ tr1) w1 s1 K1) as (tr' & w' & s' & (G' & T' & _) & K). exists (tr1 ++ tr'), w', s'. rewrite (app_assoc tr). auto.
Qed.
