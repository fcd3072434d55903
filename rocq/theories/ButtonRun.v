(** Runs of the device operated by its buttons: decisions, what was seen, what can be reached. *)
From Coq Require Import String.
From Verif Require Import Lib Env TxTable UiFlow P2pkOp App SpecTx SpecTrace SpecApdu SpecScreen SpecSign SpecDispatch Moves SignInput TraceScreen TraceShow TraceUb
  DispatchProofs RulesProofs SessionProofs RequestProofs StartAccept Buttons SpecButtons ButtonProofs.

#[local] Arguments N.eqb : simpl never.
#[local] Arguments N.ltb : simpl never.
#[local] Arguments N.leb : simpl never.
#[local] Arguments N.sub : simpl never.
#[local] Arguments blen : simpl never.
#[local] Arguments num : simpl never.
#[local] Arguments slice : simpl never.

(** ** Every question was put *)

Lemma show_only : forall E key tr e outs st k f pages, history E key (tr ++ [(e, outs)]) st -> shown_by outs = Some (k, f, pages) -> outs = [OShow k f pages].
Proof.
  intros E key tr e outs st k f pages H S. apply history_last in H as (st0 & _ & _ & _ & _ & M & _).
  destruct M; cbn [shown_by] in S; try discriminate S; try (destruct b; discriminate S); try (unfold resp in S; destruct s; discriminate S); try congruence.
Qed.
Lemma was_put : forall E U key l d q k f pages, env_ok E -> operated E U key l d -> on_screen (happened l) = Some (q, k, f, pages) ->
  exists l1 l2, l = l1 ++ l2 /\ put l1 k f pages /\ still l2.
Proof.
  intros E U key l d q k f pages Henv. revert d q. induction l as [|[a os] l IH] using rev_ind; intros d q H Ho; [discriminate|].
  pose proof (operated_history _ _ _ _ _ H) as Hh.
  apply operated_last in H as (d0 & H0 & Ha & Hop & Hso). rewrite happened_snoc in Ho, Hh.
  destruct a as [e|b]; cbn [operate] in Hop.
  - assert (Keep : on_screen (happened l) = Some (q, k, f, pages) -> exists l1 l2, l ++ [(Host e, os)] = l1 ++ l2 /\ put l1 k f pages /\ still l2).
    { intros K. destruct (IH _ _ H0 K) as (l1 & l2 & -> & P & S2). exists l1, (l2 ++ [(Host e, os)]). split; [rewrite app_assoc; reflexivity|].
      split; [exact P|]. apply still_snoc. split; [exact S2|exact I]. }
    destruct (receive_shape _ _ _ _ _ Hop) as [(_ & -> & _)|(outs & _ & -> & _)]; [rewrite app_nil_r in Ho; auto|].
    rewrite on_screen_snoc in Ho. unfold question_after in Ho. cbn [fst snd] in Ho. destruct Ha as [Hu _]. rewrite Hu in Ho. cbn [andb] in Ho.
    destruct (shown_by outs) as [[[k' f'] pages']|] eqn:Es; [|auto].
    rewrite (show_only _ _ _ _ _ _ _ _ _ Hh Es). exists (l ++ [(Host e, [(e, [OShow k' f' pages'])])]), []. rewrite app_nil_r. split; [reflexivity|].
    split; [|constructor]. exists l, e. injection Ho as -> -> -> ->. reflexivity.
  - assert (Keep : answered (Press b, os) = false -> on_screen (happened l) = Some (q, k, f, pages) -> exists l1 l2, l ++ [(Press b, os)] = l1 ++ l2 /\ put l1 k f pages /\ still l2).
    { intros An K. destruct (IH _ _ H0 K) as (l1 & l2 & -> & P & S2). exists l1, (l2 ++ [(Press b, os)]). split; [rewrite app_assoc; reflexivity|].
      split; [exact P|]. apply still_snoc. split; [exact S2|exact An]. }
    destruct (press_single _ _ _ _ _ _ Hop) as [[-> _]|(e & outs & -> & Hu & Es)]; [rewrite app_nil_r in Ho; auto|].
    pose proof (user_no_show _ _ _ _ _ _ Hh Hu) as Ns.
    rewrite on_screen_snoc in Ho. unfold question_after in Ho. cbn [fst snd] in Ho. rewrite Ns, Hu in Ho. cbn [andb] in Ho.
    destruct (responds outs) eqn:R; [discriminate|]. apply Keep; [|exact Ho]. unfold answered. cbn [snd existsb]. rewrite R. reflexivity.
Qed.

(** ** Answers are decisions *)

Lemma decides : forall E U key l l' b os d d', env_ok E -> forall k f pages, put l k f pages -> still l' -> operated E U key (l ++ l') d ->
  operated E U key ((l ++ l') ++ [(Press b, os)]) d' -> answered (Press b, os) = true -> decision k pages d b os.
Proof.
  intros E U key l l' b os d d' Henv k f pages Hput Hs H H' An. apply operated_last in H' as (d0 & H0 & _ & Hop & Hso).
  rewrite (operated_det _ _ _ _ _ _ H H0) in *. clear d0 H0. cbn [operate] in Hop. pose proof (operated_history _ _ _ _ _ H) as Hh.
  destruct (question_run _ _ _ _ _ _ _ _ _ Henv Hput H Hs) as ((e0 & Ho) & i & n & p & bs0 & St & Tu & Pl).
  destruct Pl as [[Pl _]|(Pl & _)].
  2: { unfold press in Hop. rewrite Pl in Hop. injection Hop as <- <-. discriminate An. }
  destruct (question_press _ _ _ _ _ _ _ _ _ _ _ _ _ _ _ Henv Hh Ho Pl St Hop (or_intror Hso)) as [[_ Q]|[D|(_ & _ & -> & _)]].
  - exfalso. unfold answered in An. cbn [snd] in An. apply existsb_exists in An as (o & Hin & R). rewrite Forall_forall in Q. destruct (Q _ Hin) as (_ & K & _). congruence.
  - exact D.
  - discriminate An.
Qed.

(** The approval and refusal cards act. *)
Lemma shown_cell : forall d c p, displayed d = Some (c, p) -> (forall i, dv_at d <> P_WAS c i p) -> exists i, (dv_at d = P_AT i p \/ dv_at d = P_DEAD i p) /\ card_of (dv_page d) (cell (dv_st d) i) = Some c.
Proof.
  intros d c p H Nw. unfold displayed in H. destruct (dv_at d) as [i q|x i q|i q|]; [|injection H as -> ->; destruct (Nw i eq_refl)| |discriminate];
  destruct (card_of _ _) eqn:C in H; try discriminate; injection H as <- <-; eauto.
Qed.
Lemma card_approve : forall pg s, card_of pg s = Some C_APPROVE -> s = SC_APPROVE. Proof. intros pg []; cbn; congruence. Qed.
Lemma card_reject : forall pg s, card_of pg s = Some C_REJECT -> s = SC_REJECT. Proof. intros pg []; cbn; congruence. Qed.

Lemma acts : forall E U key l l' d k f pages, env_ok E -> put l k f pages -> still l' -> operated E U key (l ++ l') d ->
  (forall p, displayed d = Some (C_APPROVE, p) -> exists x s, snd (press E U d BOTH) = [(UiApprove, [OResp x s])]) /\
  (forall p, displayed d = Some (C_REJECT, p) -> snd (press E U d BOTH) = [(UiReject, [OResp [] SW_DENY])]).
Proof.
  intros E U key l l' d k f pages Henv Hput Hs H. pose proof (operated_history _ _ _ _ _ H) as Hh.
  destruct (question_run _ _ _ _ _ _ _ _ _ Henv Hput H Hs) as ((e0 & Ho) & i & n & p & bs0 & St & Tu & Pl).
  assert (K : forall c q, displayed d = Some (c, q) -> (c = C_APPROVE \/ c = C_REJECT) -> exists i, dv_at d = P_AT i q /\ card_of (dv_page d) (cell (dv_st d) i) = Some c).
  { intros c q Dp Hc. destruct (shown_cell _ _ _ Dp) as (j & [A|A] & C); [intros j; destruct Pl as [[Pl _]|(Pl & _)]; congruence|eauto|]. exfalso. destruct Pl as [[Pl _]|(Pl & _ & _ & t & x & Pc)]; [congruence|].
    rewrite A in Pl. injection Pl as -> ->. rewrite Pc in C. cbn in C. destruct Hc; congruence. }
  split; intros q Dp; destruct (K _ _ Dp ltac:(auto)) as (j & A & C); unfold press; rewrite A, C; cbn [extra]; rewrite (proj2 (Nat.ltb_ge q 0)) by lia; cbn [andb]; unfold validate, fire.
  - rewrite (card_approve _ _ C). destruct (step E (dv_st d) UiApprove) as [st' outs] eqn:Es. cbn [snd].
    destruct (approve_answers _ _ _ _ _ _ _ _ _ _ _ Henv Hh Ho (or_introl eq_refl) Es) as (x & s & ->). eauto.
  - rewrite (card_reject _ _ C). destruct (reject_screen _ _ _ _ _ Henv Hh Ho) as (st' & Es & _). rewrite Es. reflexivity.
Qed.

(** ** Signatures *)

Lemma press_approve : forall E U d b d' os outs, press E U d b = (d', os) -> (forall c i p, dv_at d <> P_WAS c i p) -> In (UiApprove, outs) os -> b = BOTH /\ exists p, displayed d = Some (C_APPROVE, p).
Proof.
  intros E U d b d' os outs H Nw Hin. unfold press in H. destruct (dv_at d) as [i part|c i part| |] eqn:A; [|destruct (Nw c i part eq_refl)|injection H as <- <-; destruct Hin..].
  assert (Ar : forall st page i fw, arrive E U st page i fw = (d', os) -> False).
  { intros st page j fw K. apply arrive_shape in K as [[-> _]|(e & o & -> & He & _)]; [destruct Hin|]. destruct Hin as [Hin|[]]. destruct He; congruence. }
  destruct b.
  - exfalso. destruct part; [|injection H as <- <-; destruct Hin]. unfold flow_prev in H. destruct i; [|eauto].
    destruct (cell (dv_st d) _); eauto; injection H as <- <-; destruct Hin.
  - exfalso. destruct (Nat.ltb _ _); [injection H as <- <-; destruct Hin|]. unfold flow_next in H. destruct (cell (dv_st d) (S i)); eauto; injection H as <- <-; destruct Hin.
  - split; [reflexivity|]. destruct (_ && _); [injection H as <- <-; destruct Hin|]. unfold validate, fire in H.
    assert (F : forall e at_, e <> UiApprove -> (let '(st', o) := step E (dv_st d) e in (mk_device st' (dv_page d) at_, [(e, o)])) = (d', os) -> False).
    { intros e at_ Ne K. destruct (step E (dv_st d) e) as [st' o]. injection K as <- <-. destruct Hin as [Hin|[]]. congruence. }
    unfold displayed. rewrite A. destruct (cell (dv_st d) i); try (exfalso; injection H as <- <-; destruct Hin; fail); try (exfalso; eapply F; [|exact H]; discriminate); [eexists; reflexivity|].
    exfalso. destruct (bytes_eqb _ _); [eapply F; [|exact H]; discriminate|]. destruct (bytes_eqb _ _); [eapply F; [|exact H]; discriminate|]. injection H as <- <-. destruct Hin.
Qed.
Lemma sign_press : forall E U key l a os d o sig, env_ok E -> operated E U key (l ++ [(a, os)]) d -> In o os -> signature o = Some sig ->
  a = Press BOTH /\ exists d0 l1 l2 f pages, operated E U key l d0 /\ displayed d0 = Some (C_APPROVE, O) /\ l = l1 ++ l2 /\ put l1 U_STX_TX f pages /\ still l2.
Proof.
  intros E U key l a os d o sig Henv H Hin S. pose proof (operated_history _ _ _ _ _ H) as Hh. rewrite happened_snoc in Hh.
  apply operated_last in H as (d0 & H0 & Ha & Hop & _).
  assert (One : os = [o]).
  { destruct a as [e|b]; cbn [operate] in Hop.
    - destruct (receive_shape _ _ _ _ _ Hop) as [(_ & -> & _)|(outs & _ & -> & _)]; [destruct Hin|]. destruct Hin as [-> |[]]. reflexivity.
    - destruct (press_single _ _ _ _ _ _ Hop) as [[-> _]|(e & outs & -> & _)]; [destruct Hin|]. destruct Hin as [-> |[]]. reflexivity. }
  subst os. destruct (signature_consent _ _ _ _ _ _ Henv Hh S) as (Fo & (q & f & pages & Ho) & _). destruct o as [e outs]. cbn [fst] in Fo. subst e.
  destruct (was_put _ _ _ _ _ _ _ _ _ Henv H0 Ho) as (l1 & l2 & -> & Hput & Hs). destruct a as [e|b]; cbn [operate] in Hop.
  - exfalso. destruct (receive_shape _ _ _ _ _ Hop) as [(_ & K & _)|(outs' & _ & K & _)]; [discriminate|]. assert (e = UiApprove) by congruence. subst e. destruct Ha as [Ha _]. discriminate Ha.
  - assert (Nw : forall c i p, dv_at d0 <> P_WAS c i p).
    { destruct (question_run _ _ _ _ _ _ _ _ _ Henv Hput H0 Hs) as (_ & i & n & p & bs0 & _ & _ & Pl). intros x y z. destruct Pl as [[Pl _]|(Pl & _)]; congruence. }
    destruct (press_approve _ _ _ _ _ _ _ Hop Nw Hin) as (-> & p & Dp). split; [reflexivity|]. exists d0, l1, l2, f, pages.
    destruct (question_cards _ _ _ _ _ _ _ _ _ Henv H0 Hput Hs) as (n & p' & c & Dp' & _ & L & _). rewrite Dp in Dp'. injection Dp' as <- <-. cbn [extra] in L.
    replace p with 0%nat in Dp by lia. auto.
Qed.

(** ** What was seen *)

Lemma cards_end : forall E key tr st q k f pages, env_ok E -> history E key tr st -> on_screen tr = Some (q, k, f, pages) ->
  exists pre, cards f pages = pre ++ [Some C_APPROVE; Some C_REJECT] /\
    Forall (fun c => c <> Some C_APPROVE /\ c <> Some C_REJECT) pre /\ (In None pre -> exists s, In (Fail s) pages).
Proof.
  intros E key tr st q k f pages Henv H Ho.
  destruct (question_form _ _ _ _ _ _ _ _ Henv H Ho) as [(_ & -> & body & -> & Hs)|(_ & (tt & ->) & _ & _)].
  - exists (map (card_of ([], [])) body). rewrite static_cards, map_app by assumption. split; [reflexivity|]. split.
    + apply Forall_forall. intros c Hc. apply in_map_iff in Hc as (s & <- & Hin). rewrite Forall_forall in Hs. specialize (Hs _ Hin). destruct s; try destruct Hs; split; discriminate.
    + intros Hc. apply in_map_iff in Hc as (s & K & Hin). rewrite Forall_forall in Hs. specialize (Hs _ Hin). destruct s; try destruct Hs; discriminate.
  - exists (Some (C_INFO tt) :: page_cards pages). rewrite paged_cards. split; [reflexivity|]. split.
    + constructor; [split; discriminate|]. apply Forall_forall. intros c Hc. apply in_map_iff in Hc as ([[t b]|s] & <- & _); split; discriminate.
    + intros [K|Hc]; [discriminate|]. apply in_map_iff in Hc as ([[t b]|s] & K & Hin); [discriminate|]. eauto.
Qed.
Definition before (x y : nat * nat) : Prop := (fst x < fst y)%nat \/ (fst x = fst y /\ snd x <= snd y)%nat.
(** All parts of all cards up to [x] were displayed. *)
Definition read_to (E : env) (U : ux) (key : bytes) (l l' : list deed) (cs : list (option card)) (x : nat * nat) : Prop :=
  forall n oc, nth_error cs n = Some oc -> (n <= fst x)%nat -> exists c, oc = Some c /\
    forall p, (p <= extra U c)%nat -> before (n, p) x -> seen E U key l l' c p.
Lemma seen_more : forall E U key l l' x c p, seen E U key l l' c p -> seen E U key l (l' ++ [x]) c p.
Proof. intros E U key l l' x c p (l1 & l2 & d & -> & H & D). exists l1, (l2 ++ [x]), d. split; [rewrite app_assoc; reflexivity|]. auto. Qed.
Lemma seen_now : forall E U key l l' d c p, operated E U key (l ++ l') d -> displayed d = Some (c, p) -> seen E U key l l' c p.
Proof. intros E U key l l' d c p H D. exists l', [], d. rewrite app_nil_r. auto. Qed.
Lemma read_more : forall E U key l l' x cs y, read_to E U key l l' cs y -> read_to E U key l (l' ++ [x]) cs y.
Proof. intros E U key l l' x cs y H n oc Hn L. destruct (H n oc Hn L) as (c & -> & K). exists c. split; [reflexivity|]. intros p Lp B. apply seen_more. auto. Qed.
Lemma read_back : forall E U key l l' cs x y, read_to E U key l l' cs y -> before x y -> read_to E U key l l' cs x.
Proof.
  intros E U key l l' cs x y H B n oc Hn L. assert (L' : (n <= fst y)%nat) by (unfold before in B; lia). destruct (H n oc Hn L') as (c & -> & K). exists c. split; [reflexivity|].
  intros p Lp B'. apply K; [exact Lp|]. unfold before in *. cbn [fst snd] in *. lia.
Qed.

Lemma read_run : forall E U key l l' d k f pages, env_ok E -> put l k f pages -> operated E U key (l ++ l') d -> still l' ->
  seen E U key l l' C_REJECT O \/
  exists i n p, standing U f pages d i n p /\ (dv_at d = P_AT i p \/ dv_at d = P_DEAD i p) /\ read_to E U key l l' (cards f pages) (n, p).
Proof.
  intros E U key l l' d k f pages Henv Hput. revert d. induction l' as [|[a os] l' IH] using rev_ind; intros d H Hs.
  - right. rewrite app_nil_r in H. destruct (put_start _ _ _ _ _ _ _ _ Henv H Hput) as (_ & A & St). exists 0%nat, 0%nat, 0%nat. split; [exact St|]. split; [auto|].
    intros n oc Hn L. cbn [fst] in L. assert (n = 0%nat) by lia. subst n. pose proof St as [_ (c & C1 & C2 & _)]. rewrite C1 in Hn. injection Hn as <-. exists c. split; [reflexivity|].
    intros p Lp B. unfold before in B. cbn [fst snd] in B. replace p with 0%nat by lia. eapply seen_now; [rewrite app_nil_r; exact H|].
    eapply displayed_standing; eauto.
  - pose proof H as Hall. apply still_snoc in Hs as [Hs Hx]. rewrite app_assoc in H. apply operated_last in H as (d0 & H0 & Ha & Hop & Hso).
    destruct (IH _ H0 Hs) as [Sr|(i & n & p & St & Pl & R)]; [left; apply seen_more; exact Sr|].
    destruct (question_run _ _ _ _ _ _ _ _ _ Henv Hput H0 Hs) as ((e0 & Ho) & _). pose proof (operated_history _ _ _ _ _ H0) as Hh.
    destruct a as [e|b]; cbn [operate fst] in *.
    + right. destruct Ha as [Hu _].
      destruct (receive_shape _ _ _ _ _ Hop) as [(Off & _)|(outs & _ & -> & Es & Epg & Eat)]; [destruct Pl as [Pl|Pl]; congruence|].
      destruct (host_step_busy _ _ _ _ _ (screen_busy _ _ _ _ _ Henv Hh Ho) Hu Es) as (Est & b & s & ->). cbn [shown_by] in Eat.
      rewrite Est, kept_same in Eat. assert (d = d0) by (destruct d as [s1 g1 a1], d0 as [s0 g0 a0]; cbn [dv_st dv_page dv_at] in *; congruence). subst d.
      exists i, n, p. split; [exact St|]. split; [exact Pl|]. apply read_more. exact R.
    + destruct Pl as [Pl|Pl].
      2: { unfold press in Hop. rewrite Pl in Hop. injection Hop as <- <-. right. exists i, n, p. split; [exact St|]. split; [auto|]. apply read_more. exact R. }
      destruct (question_press _ _ _ _ _ _ _ _ _ _ _ _ _ _ _ Henv Hh Ho Pl St Hop (or_intror Hso)) as [[(i' & n' & p' & A' & St' & Tn) Q]|[D|(-> & Hk & -> & -> & Hc)]].
      2: { rewrite (decision_answered _ _ _ _ _ D) in Hx. discriminate. }
      2: { right. exists i, n, p. split; [destruct d0; exact St|]. split; [right; reflexivity|]. apply read_more. exact R. }
      destruct (cards_end _ _ _ _ _ _ _ _ Henv Hh Ho) as (pre & Ec & _ & _).
      pose proof St' as [_ (c' & C1' & _ & L')]. pose proof St as [_ (c & C1 & _ & L)].
      pose proof (displayed_standing _ _ _ _ _ _ _ _ St' (or_introl A') C1') as Dp'. pose proof (displayed_standing _ _ _ _ _ _ _ _ St (or_introl Pl) C1) as Dp.
      assert (Last : forall m x q, S m = length (cards f pages) -> nth_error (cards f pages) m = Some (Some x) -> (q <= extra U x)%nat -> x = C_REJECT /\ q = 0%nat).
      { intros m x q Lm Hm Lq. rewrite Ec in Hm, Lm. rewrite app_length in Lm. cbn [length] in Lm. rewrite nth_error_app2 in Hm by lia. replace (m - length pre)%nat with 1%nat in Hm by lia.
        cbn in Hm. injection Hm as <-. cbn [extra] in Lq. split; [reflexivity|lia]. }
      assert (Now : read_to E U key l l' (cards f pages) (n, p) -> (forall m q x, nth_error (cards f pages) m = Some (Some x) -> (q <= extra U x)%nat -> before (m, q) (n', p') -> before (m, q) (n, p) \/ (m, q) = (n', p')) ->
        (n' <= S n)%nat -> read_to E U key l (l' ++ [(Press b, os)]) (cards f pages) (n', p')).
      { intros _ Hb Ln m oc Hm Lm. cbn [fst] in Lm. assert (Cases : (m <= n)%nat \/ m = n') by lia.
        assert (Ex : exists x, oc = Some x). { destruct Cases as [Cs| ->]; [destruct (R m oc Hm Cs) as (x & -> & _); eauto|]. rewrite C1' in Hm. injection Hm as <-. eauto. }
        destruct Ex as [x ->]. exists x. split; [reflexivity|]. intros q Lq B. destruct (Hb m q x Hm Lq B) as [B'|B'].
        - destruct (R m (Some x) Hm ltac:(unfold before in B'; cbn [fst snd] in B'; cbn [fst]; lia)) as (y & Ey & K). injection Ey as <-. apply seen_more. auto.
        - injection B' as -> ->. rewrite C1' in Hm. injection Hm as <-. eapply seen_now; [exact Hall|exact Dp']. }
      inversion Tn as [n1 p1 Nl|n1 p1 (x & X1 & X2) Ll|n1 p1 p2 (x & X1 & X2) Ll|n1 p1|n1 p1|n1 p1 Ll|x]; subst.
      * right. exists i', n', (S p). split; [exact St'|]. split; [auto|]. apply Now; [exact R| |lia]. intros m q x _ _ B. unfold before in *. cbn [fst snd] in *.
        destruct (Nat.eq_dec m n') as [-> |]; [|left; lia]. destruct (Nat.eq_dec q (S p)) as [-> |]; [auto|left; lia].
      * right. exists i', (S n), 0%nat. split; [exact St'|]. split; [auto|]. apply Now; [exact R| |lia]. intros m q y Hm Lq B. unfold before in *. cbn [fst snd] in *.
        destruct (Nat.eq_dec m (S n)) as [-> |]; [right; f_equal; lia|]. left. destruct (Nat.eq_dec m n) as [-> |]; [|left; lia]. right. split; [reflexivity|]. rewrite X1 in Hm. injection Hm as <-. exact Lq.
      * left. rewrite C1 in X1. injection X1 as <-. destruct (Last n c _ Ll C1 L) as [-> _]. apply seen_more. eapply seen_now; [exact H0|exact Dp].
      * right. exists i', n', p'. split; [exact St'|]. split; [auto|]. apply read_more. eapply read_back; [exact R|]. unfold before. cbn [fst snd]. lia.
      * right. exists i', n', p'. split; [exact St'|]. split; [auto|]. apply read_more. eapply read_back; [exact R|]. unfold before. cbn [fst snd]. lia.
      * left. destruct (Last n' c' p' Ll C1' L') as [-> ->]. eapply seen_now; [exact Hall|exact Dp'].
      * right. exists i', n', p'. split; [exact St'|]. split; [auto|]. apply read_more. exact R.
Qed.
Lemma reads : forall E U key l l' d k f pages q, env_ok E -> put l k f pages -> still l' -> operated E U key (l ++ l') d -> displayed d = Some (C_APPROVE, q) ->
  seen E U key l l' C_REJECT O \/
  forall oc, In oc (cards f pages) -> exists c, oc = Some c /\ (c = C_REJECT \/ forall p, (p <= extra U c)%nat -> seen E U key l l' c p).
Proof.
  intros E U key l l' d k f pages q Henv Hput Hs H Dp.
  destruct (read_run _ _ _ _ _ _ _ _ _ Henv Hput H Hs) as [K|(i & n & p & St & Pl & R)]; [left; exact K|]. right. intros oc Hin.
  destruct (question_run _ _ _ _ _ _ _ _ _ Henv Hput H Hs) as ((e0 & Ho) & _). pose proof (operated_history _ _ _ _ _ H) as Hh.
  destruct (cards_end _ _ _ _ _ _ _ _ Henv Hh Ho) as (pre & Ec & Hpre & _). pose proof St as [_ (c & C1 & _ & L)].
  pose proof (displayed_standing _ _ _ _ _ _ _ _ St Pl C1) as Dp'. rewrite Dp in Dp'. injection Dp' as <- <-.
  assert (En : n = length pre).
  { rewrite Ec in C1. destruct (Nat.lt_ge_cases n (length pre)) as [Ln|Ln].
    - exfalso. rewrite nth_error_app1 in C1 by assumption. apply nth_error_In in C1. rewrite Forall_forall in Hpre. apply Hpre in C1. destruct C1. congruence.
    - rewrite nth_error_app2 in C1 by assumption. destruct (n - length pre)%nat as [|[|m]] eqn:D; [lia|discriminate|]. destruct m; discriminate. }
  apply In_nth_error in Hin as [m Hm]. destruct (Nat.le_gt_cases m n) as [Lm|Lm].
  - destruct (R m oc Hm Lm) as (x & -> & K). exists x. split; [reflexivity|]. right. intros p Lp. apply K; [exact Lp|].
    destruct (Nat.eq_dec m n) as [-> |]; [|left; cbn [fst]; lia]. right. cbn [fst snd]. split; [reflexivity|]. rewrite C1 in Hm. injection Hm as <-. cbn [extra] in *. lia.
  - exists C_REJECT. split; [|auto]. rewrite Ec, nth_error_app2 in Hm by lia. destruct (m - length pre)%nat as [|[|j]] eqn:D; [lia|cbn in Hm; congruence|]. destruct j; discriminate.
Qed.

(** ** What can be reached *)

Definition w (U : ux) (cs : list (option card)) (n : nat) : nat := parts U (firstn n cs).
Lemma parts_app : forall U a b, parts U (a ++ b) = (parts U a + parts U b)%nat.
Proof. intros. unfold parts. rewrite map_app, list_sum_app. reflexivity. Qed.
Lemma w_next : forall U cs n c, nth_error cs n = Some (Some c) -> w U cs (S n) = (w U cs n + S (extra U c))%nat.
Proof.
  intros U cs. induction cs as [|x cs IH]; intros [|n] c H; try discriminate.
  - cbn in H. injection H as ->. unfold w, parts. cbn. lia.
  - cbn in H. unfold w, parts in *. cbn [firstn map list_sum fold_right] in *. specialize (IH _ _ H). cbn [firstn map list_sum fold_right] in IH. unfold list_sum in *. lia.
Qed.
Lemma w_le : forall U cs n m, (n <= m)%nat -> (w U cs n <= w U cs m)%nat.
Proof.
  intros U cs n m L. unfold w. rewrite <- (firstn_skipn n (firstn m cs)), firstn_firstn, (Nat.min_l n m L), parts_app. lia.
Qed.
Lemma w_all : forall U cs n, (length cs <= n)%nat -> w U cs n = parts U cs.
Proof. intros U cs n L. unfold w. rewrite firstn_all2 by assumption. reflexivity. Qed.
Definition gap (U : ux) (cs : list (option card)) (m : nat) (x : nat * nat) : nat :=
  let v := (w U cs (fst x) + snd x)%nat in if Nat.leb (fst x) m then (w U cs m - v)%nat else (parts U cs - v + w U cs m)%nat.
Lemma gap_bound : forall U cs m x, (m < length cs)%nat -> (gap U cs m x <= parts U cs)%nat.
Proof.
  intros U cs m [n p] L. unfold gap. cbn [fst snd]. pose proof (w_le U cs m (length cs) ltac:(lia)) as K. rewrite (w_all U cs (length cs)) in K by lia.
  destruct (Nat.leb_spec n m) as [A|A]; [lia|]. pose proof (w_le U cs m n ltac:(lia)). lia.
Qed.
Lemma gap_step : forall U cs m x y, valid U cs x -> valid U cs y -> turn U cs RIGHT x y -> (m < length cs)%nat -> fst x <> m -> (gap U cs m y < gap U cs m x)%nat.
Proof.
  intros U cs m [n p] y (c & C & L) (c' & C' & L') T Lm Ne. cbn [fst snd] in *.
  assert (Ln : (n < length cs)%nat) by (apply nth_error_Some; congruence).
  pose proof (w_next U _ _ _ C) as Wn. pose proof (w_le U cs (S n) (length cs) ltac:(lia)) as K. rewrite (w_all U cs (length cs)) in K by lia.
  assert (A1 : (n < m)%nat -> (w U cs (S n) <= w U cs m)%nat) by (intros; apply w_le; lia).
  inversion T as [n1 p1 Nl|n1 p1 (x & X1 & X2) Ll|n1 p1 p2 (x & X1 & X2) Ll| | | |]; subst; cbn [fst snd] in *; unfold gap; cbn [fst snd].
  - destruct (Nat.leb_spec n m) as [A|A]; lia.
  - rewrite C in X1. injection X1 as <-. destruct (Nat.leb_spec n m) as [A|A].
    + destruct (Nat.leb_spec (S n) m) as [B|B]; [|lia]. rewrite Wn. lia.
    + destruct (Nat.leb_spec (S n) m) as [B|B]; [lia|]. rewrite Wn. lia.
  - rewrite C in X1. injection X1 as <-. destruct (Nat.leb_spec n m) as [A|A]; [lia|]. cbn [Nat.leb]. change (w U cs 0) with 0%nat. lia.
Qed.

Lemma quiet_sound : forall os, Forall quiet os -> sound os.
Proof. intros os H. eapply Forall_impl; [|exact H]. intros o (_ & _ & A & B). auto. Qed.
Lemma quiet_answered : forall a os, Forall quiet os -> answered (a, os) = false.
Proof.
  intros a os H. unfold answered. cbn [snd]. induction H as [|o os (_ & R & _) H IH]; [reflexivity|]. cbn [existsb]. rewrite R. exact IH.
Qed.

Lemma walk_right : forall E U key k f pages q m c, env_ok E -> (forall s, In (Fail s) pages -> False) -> nth_error (cards f pages) m = Some (Some c) ->
  forall j l d i n p, operated E U key l d -> on_screen (happened l) = Some (q, k, f, pages) -> dv_at d = P_AT i p -> standing U f pages d i n p ->
  (gap U (cards f pages) m (n, p) <= j)%nat ->
  exists l2 d2 p2, operated E U key (l ++ l2) d2 /\ (length l2 <= j)%nat /\ Forall (fun x => fst x = Press RIGHT /\ answered x = false) l2 /\ displayed d2 = Some (c, p2).
Proof.
  intros E U key k f pages q m c Henv Nf Hm. assert (Lm : (m < length (cards f pages))%nat) by (apply nth_error_Some; congruence).
  induction j as [|j IH]; intros l d i n p H Ho A St G; (destruct (Nat.eq_dec n m) as [-> |Ne];
    [exists [], d, p; rewrite app_nil_r; split; [exact H|]; split; [cbn; lia|]; split; [constructor|]; eapply displayed_standing; eauto|]).
  all: pose proof (operated_history _ _ _ _ _ H) as Hh; destruct (press E U d RIGHT) as [d' os] eqn:P.
  all: destruct (question_press _ _ _ _ _ _ _ _ _ _ _ _ _ _ _ Henv Hh Ho A St P (or_introl Nf)) as [[(i' & n' & p' & A' & St' & Tn) Q]|[D|(K & _)]]; [| |discriminate K].
  2, 4: exfalso; destruct D as [(K & _)|[(K & _)|[(K & _)|(_ & e & s & _ & Hin & _)]]]; try discriminate K; eapply Nf; eassumption.
  all: pose proof (gap_step _ _ m _ _ (standing_valid _ _ _ _ _ _ _ St) (standing_valid _ _ _ _ _ _ _ St') Tn Lm Ne) as Gs. 1: lia.
  assert (H' : operated E U key (l ++ [(Press RIGHT, os)]) d') by (eapply operated_more; [exact H|exact I|exact P|apply quiet_sound; exact Q]).
  assert (Ho' : on_screen (happened (l ++ [(Press RIGHT, os)])) = Some (q, k, f, pages)) by (rewrite happened_snoc, quiet_screen by exact Q; exact Ho).
  destruct (IH _ _ _ _ _ H' Ho' A' St' ltac:(lia)) as (l2 & d2 & p2 & H2 & L2 & F2 & D2). exists ((Press RIGHT, os) :: l2), d2, p2.
  rewrite <- app_assoc in H2. split; [exact H2|]. split; [cbn [length]; lia|]. split; [|exact D2]. constructor; [|exact F2]. split; [reflexivity|]. apply quiet_answered. exact Q.
Qed.

Lemma at_card_det : forall st i n n', at_card st i n -> at_card st i n' -> n = n'.
Proof. intros st i n n'. unfold at_card. destruct (has_pages (st_ui st)); [|congruence]. intros [A|[A|[A|A]]] [B|[B|[B|B]]]; lia. Qed.
Lemma dead_dead : forall E U key l l' d k f pages, env_ok E -> put l k f pages -> operated E U key (l ++ l') d -> still l' ->
  dead E U d -> exists i p, dv_at d = P_DEAD i p.
Proof.
  intros E U key l l' d k f pages Henv Hput H Hs Dd. pose proof (operated_history _ _ _ _ _ H) as Hh.
  destruct (question_run _ _ _ _ _ _ _ _ _ Henv Hput H Hs) as ((e0 & Ho) & i & n & p & bs0 & St & Tu & Pl). destruct Pl as [[Pl _]|(Pl & _)]; [|eauto]. exfalso.
  destruct (cards_end _ _ _ _ _ _ _ _ Henv Hh Ho) as (pre & Ec & _). assert (Lc : (2 <= length (cards f pages))%nat) by (rewrite Ec, app_length; cbn [length]; lia).
  destruct (question_press _ _ _ _ _ _ _ _ _ _ _ _ _ _ _ Henv Hh Ho Pl St (Dd RIGHT) (or_intror (Forall_nil _))) as [[(i' & n' & p' & A' & St' & Tn) Q]|[D|(K & _)]]; [| |discriminate K].
  - rewrite Pl in A'. injection A' as <- <-. rewrite <- (at_card_det _ _ _ _ (proj1 St) (proj1 St')) in Tn. inversion Tn; subst; lia.
  - destruct D as [(K & _)|[(K & _)|[(K & _)|(_ & e & s & _ & _ & _ & K)]]]; discriminate K.
Qed.

Lemma reach : forall E U key l l' d k f pages n c, env_ok E -> put l k f pages -> still l' -> operated E U key (l ++ l') d ->
  (forall s, ~ In (Fail s) pages) -> ~ dead E U d -> nth_error (cards f pages) n = Some (Some c) ->
  exists l2 d2 p, operated E U key ((l ++ l') ++ l2) d2 /\ (length l2 <= parts U (cards f pages))%nat /\
    Forall (fun x => fst x = Press RIGHT /\ answered x = false) l2 /\ displayed d2 = Some (c, p).
Proof.
  intros E U key l l' d k f pages m c Henv Hput Hs H Nf Nd Hm.
  destruct (question_run _ _ _ _ _ _ _ _ _ Henv Hput H Hs) as ((e0 & Ho) & i & n & p & bs0 & St & Tu & Pl).
  destruct Pl as [[Pl _]|(Pl & _)]; [|exfalso; apply Nd; eapply dead_place; eauto].
  eapply walk_right; eauto. apply gap_bound. apply nth_error_Some. congruence.
Qed.

Lemma frozen : forall E U key l l' d k f pages, env_ok E -> put l k f pages -> still l' -> operated E U key (l ++ l') d -> dead E U d ->
  forall l2 d2, operated E U key ((l ++ l') ++ l2) d2 -> d2 = d /\
    Forall (fun x => match fst x with Press _ => snd x = [] | Host e => exists b s, snd x = [(e, [OResp b s])] end) l2.
Proof.
  intros E U key l l' d k f pages Henv Hput Hs H Dd l2. destruct (dead_dead _ _ _ _ _ _ _ _ _ Henv Hput H Hs Dd) as (i & p & Pl).
  induction l2 as [|[a os] l2 IH] using rev_ind; intros d2 H2; [rewrite app_nil_r in H2; split; [eapply operated_det; eauto|constructor]|].
  rewrite app_assoc in H2. apply operated_last in H2 as (d1 & H1 & Ha & Hop & _). destruct (IH _ H1) as [-> F].
  assert (Hs2 : still (l' ++ l2)).
  { unfold still in *. apply Forall_app. split; [exact Hs|]. eapply Forall_impl; [|exact F]. intros [a' os'] K. cbn [fst snd] in *. destruct a'; [exact I|]. rewrite K. reflexivity. }
  rewrite <- app_assoc in H1. destruct (question_run _ _ _ _ _ _ _ _ _ Henv Hput H1 Hs2) as ((e0 & Ho) & _). pose proof (operated_history _ _ _ _ _ H1) as Hh.
  assert (Fin : d2 = d /\ match a with Press _ => os = [] | Host e => exists b s, os = [(e, [OResp b s])] end).
  { destruct a as [e|b]; cbn [operate] in Hop.
    - destruct Ha as [Hu _]. destruct (receive_shape _ _ _ _ _ Hop) as [(Off & _)|(outs & _ & -> & Es & Epg & Eat)]; [congruence|].
      destruct (host_step_busy _ _ _ _ _ (screen_busy _ _ _ _ _ Henv Hh Ho) Hu Es) as (Est & b & s & ->). cbn [shown_by] in Eat. rewrite Est, kept_same in Eat. split; [|eauto].
      destruct d2 as [s1 g1 a1], d as [s0 g0 a0]; cbn [dv_st dv_page dv_at] in *; congruence.
    - rewrite Dd in Hop. injection Hop as <- <-. auto. }
  destruct Fin as [-> Fin]. split; [reflexivity|]. apply Forall_app. split; [exact F|]. constructor; [exact Fin|constructor].
Qed.

(** ** Menus *)

Lemma idle_busy : forall E key tr st, env_ok E -> history E key tr st -> on_screen tr = None -> st_busy st = false.
Proof.
  intros E key tr st Henv H Ho. destruct (screen_inv_holds E key tr st Henv H) as [_ S]. destruct (st_busy st); [|reflexivity]. rewrite Ho in S. destruct S as (e & pages & K & _). discriminate K.
Qed.

(** The cells of the menus but the first, and what the first can be. *)
Definition menu_tail : flow := [SC_BUTTON (str "About"); SC_BUTTON (str "Quit"); SC_LOOP; SC_END].
Definition about_tail : flow := [SC_TEXT (str "Version") (str "0.0.5"); SC_BUTTON (str "Back"); SC_LOOP; SC_END].
Definition first_cell (tr : list obs) (h : screen) : Prop :=
  h = SC_INFO (str "Ergo is ready") \/ h = SC_TEXT (str "Ergo App") (str "(c) 2024 Ergo") \/ exists t, left_over tr t /\ h = SC_INFO t.
Definition homely (tr : list obs) (st : state) : Prop :=
  exists h, first_cell tr h /\ (st_ui st = U_MENU /\ st_flow st = h :: menu_tail \/ st_ui st = U_ABOUT /\ st_flow st = h :: about_tail).
Definition quiet (o : list obs) : Prop := Forall (fun x => shown_by (snd x) = None) o.
Lemma left_more : forall tr o t, quiet o -> left_over tr t -> left_over (tr ++ o) t.
Proof. intros tr o t Q (a & e & b & -> & Hh & Hb). exists a, e, (b ++ o). split; [rewrite <- app_assoc; reflexivity|]. split; [exact Hh|apply Forall_app; auto]. Qed.
Lemma quiet_one : forall e outs, shown_by outs = None -> quiet [(e, outs)].
Proof. intros e outs H. constructor; [exact H|constructor]. Qed.
Lemma resp_shut : forall s, shown_by [resp s] = None.
Proof. intro s. destruct s; reflexivity. Qed.
Ltac shut := first [reflexivity | apply resp_shut].
Lemma first_more : forall tr o h, quiet o -> first_cell tr h -> first_cell (tr ++ o) h.
Proof. intros tr o h Q [H|[H|(t & Hl & H)]]; [left; exact H|right; left; exact H|right; right; exists t; split; [apply left_more; [exact Q|exact Hl]|exact H]]. Qed.
Lemma homely_menu : forall tr st, homely tr (ui_menu_main st).
Proof. intros. exists (SC_INFO (str "Ergo is ready")). split; [left; reflexivity|]. left. split; reflexivity. Qed.
Lemma homely_about : forall tr st, homely tr (ui_menu_about st).
Proof. intros. exists (SC_TEXT (str "Ergo App") (str "(c) 2024 Ergo")). split; [right; left; reflexivity|]. right. split; reflexivity. Qed.
Lemma homely_keep : forall tr o st st', quiet o -> homely tr st -> st_ui st' = st_ui st -> st_flow st' = st_flow st -> homely (tr ++ o) st'.
Proof. intros tr o st st' Q (h & Hh & H) U F. exists h. rewrite U, F. split; [apply first_more; assumption|exact H]. Qed.

(** What a request that fails leaves in the table: nothing, or its heading. *)
Lemma leaves_cell : forall E ins p1 p2 data r s left, env_ok E -> leaves E ins p1 p2 data s left ->
  left = [] \/ exists t, left = [SC_INFO t] /\ s = SW_BIP32_FORMATTING_FAILED /\ heading (Apdu CLA ins p1 p2 data r) = Some t.
Proof.
  intros E ins p1 p2 data r s lf Henv [-> |[(-> & -> & ->)|(-> & net & p & tok & pk & c & addr & _ & G & A & S & ->)]]; [left; reflexivity|right; eexists; split; [reflexivity|]; split; reflexivity|].
  right. destruct (gen_key_ok _ _ _ _ Henv G) as [G1 G2]. destruct (address_ok _ _ _ _ Henv G1 G2 A) as [A1 A2].
  destruct (Bip32.bip32_path_format 60 p) as [t|] eqn:T.
  { exfalso. destruct (proj1 (da_shown (p1 =? 1) tok p addr A1 A2)) as [f K]; [eauto|]. rewrite K in S. discriminate S. }
  unfold da_screens, da_written, ui_bip32_path_screen in *. rewrite T in *. exists (str (if p1 =? 1 then "Confirm Send Address" else "Confirm Address")).
  split; [reflexivity|]. split; [congruence|]. unfold heading. change (INS_ADDRESS =? INS_KEY) with false. change (INS_ADDRESS =? INS_ADDRESS) with true. cbv iota. destruct (p1 =? 1); reflexivity.
Qed.
Lemma menus_hold : forall E key tr st, env_ok E -> history E key tr st -> st_busy st = false -> homely tr st.
Proof.
  intros E key tr st Henv H. revert tr st H. apply (history_ind_move E key (fun tr st => st_busy st = false -> homely tr st)); [intros _; apply homely_menu|].
  intros tr st e outs st' Hh Sh IH Hev M Hd _ B.
  destruct M; try (exfalso; apply Hd; left; reflexivity); try (apply homely_menu); try (apply homely_about); try discriminate B;
    try (eapply homely_keep; [apply quiet_one; shut|apply IH; assumption|reflexivity..]; fail).
  - (* a request failed *)
    destruct (leaves_cell E ins p1 p2 data r s left Henv) as [-> |(t & -> & -> & Hg)]; [assumption|eapply homely_keep; [apply quiet_one; shut|apply IH; assumption|reflexivity..]|].
    destruct (IH H1) as (h & _ & Hc). exists (SC_INFO t). split.
    + right. right. exists t. split; [|reflexivity]. exists tr, (Apdu CLA ins p1 p2 data r), []. split; [reflexivity|]. split; [exact Hg|constructor].
    + cbn [overwrite st_ui st_flow reset set_command length List.app skipn]. destruct Hc as [[Hu Hf]|[Hu Hf]]; [left|right]; (split; [exact Hu|]; rewrite Hf; reflexivity).
Qed.

(** At a card of a menu. *)
Definition home_card (tr : list obs) (c : card) : Prop := In (Some c) menu_cards \/ exists t, left_over tr t /\ c = C_INFO t.
Definition idling (U : ux) (tr : list obs) (d : device) : Prop :=
  dv_at d = P_OFF \/
  exists i p c, (i < 3)%nat /\ (p <= extra U c)%nat /\ home_card tr c /\
    (dv_at d = P_AT i p /\ card_of (dv_page d) (cell (dv_st d) i) = Some c \/ dv_at d = P_WAS c i p /\ i = O).
Lemma home_more : forall tr o c, quiet o -> home_card tr c -> home_card (tr ++ o) c.
Proof. intros tr o c Q [H|(t & Hl & H)]; [left; exact H|right; exists t; split; [apply left_more; [exact Q|exact Hl]|exact H]]. Qed.
Lemma idling_more : forall U tr o d, quiet o -> idling U tr d -> idling U (tr ++ o) d.
Proof. intros U tr o d Q [H|(i & p & c & Li & Lp & Hc & H)]; [left; exact H|right; exists i, p, c; split; [exact Li|]; split; [exact Lp|]; split; [apply home_more; [exact Q|exact Hc]|exact H]]. Qed.
Lemma first_card : forall tr h pg, first_cell tr h -> exists c, card_of pg h = Some c /\ home_card tr c.
Proof.
  intros tr h pg [-> |[-> |(t & Hl & ->)]]; eexists; (split; [reflexivity|]); [left; vm_compute; tauto|left; vm_compute; tauto|right; eauto].
Qed.
Lemma idle_cell : forall tr st i, homely tr st -> (i < 3)%nat -> forall pg, exists c, card_of pg (cell st i) = Some c /\ home_card tr c.
Proof.
  intros tr st i (h & Hh & H) Li pg. unfold cell. destruct i as [|[|[|i]]]; [| | |lia].
  - destruct H as [[_ ->]|[_ ->]]; cbn [nth]; apply first_card; exact Hh.
  - destruct H as [[_ ->]|[_ ->]]; eexists; (split; [reflexivity|]); left; vm_compute; tauto.
  - destruct H as [[_ ->]|[_ ->]]; eexists; (split; [reflexivity|]); left; vm_compute; tauto.
Qed.

Lemma idle_host : forall E key tr st e outs st', env_ok E -> history E key tr st -> st_busy st = false -> by_user e = false -> step E st e = (st', outs) ->
  shown_by outs = None -> ~ In ODiverge outs -> st_flow st' = st_flow st \/ exists h, st_flow st' = h :: tl (st_flow st).
Proof.
  intros E key tr st e outs st' Henv H B Hu Es Ns Nd. pose proof (step_move E st e st' outs (history_shape _ _ _ _ H) Es) as M.
  destruct M; try discriminate Hu; try discriminate Ns; try (left; reflexivity); try (exfalso; apply Nd; left; reflexivity).
  all: try (destruct b; discriminate Hu). all: clear Es.
  - destruct (leaves_cell E ins p1 p2 data r s left Henv) as [-> |(t & -> & _)]; [assumption|left; reflexivity|right]. exists (SC_INFO t).
    cbn [overwrite st_flow reset set_command length List.app skipn]. destruct (st_flow st); reflexivity.
  - destruct H2 as [-> | ->]; discriminate Hu.
  - destruct H1 as [[-> _]|[-> _]]; discriminate Hu.
Qed.
Lemma idle_kept : forall U tr o d d', quiet o -> idling U tr d -> homely tr (dv_st d) -> st_flow (dv_st d') = st_flow (dv_st d) \/ (exists h, st_flow (dv_st d') = h :: tl (st_flow (dv_st d))) ->
  dv_page d' = dv_page d -> dv_at d' = kept d (dv_st d') -> idling U (tr ++ o) d'.
Proof.
  intros U tr o d d' Q I1 Hm F Pg A'. apply idling_more; [exact Q|]. unfold kept in A'. destruct I1 as [Off|(i & p & c & Li & Lp & Hc & [[A C]|[A ->]])].
  - rewrite Off in A'. left. exact A'.
  - rewrite A in A'. right. exists i, p, c. do 3 (split; [assumption|]). destruct (screen_dec (cell (dv_st d) i) (cell (dv_st d') i)) as [K|K].
    + left. split; [exact A'|]. rewrite Pg, <- K. exact C.
    + rewrite C in A'. right. split; [exact A'|]. destruct i as [|i]; [reflexivity|]. exfalso. apply K. unfold cell. destruct F as [-> |(h & ->)]; [reflexivity|].
      destruct Hm as (h0 & _ & [[_ ->]|[_ ->]]); reflexivity.
  - rewrite A in A'. right. exists 0%nat, p, c. do 3 (split; [assumption|]). right. split; [exact A'|reflexivity].
Qed.
Lemma press_home : forall E U d b d' e outs, press E U d b = (d', [(e, outs)]) -> responds outs = true ->
  dv_at d' = P_AT 0 0 \/ (e = UiPathBoth /\ exists i t x, cell (dv_st d) i = SC_PATH t x false).
Proof.
  intros E U d b d' e outs H R.
  assert (Ar : forall st page i fw, arrive E U st page i fw = (d', [(e, outs)]) -> dv_at d' = P_AT 0 0).
  { intros st page j fw K. unfold arrive in K. destruct (cell st j); try discriminate K.
    - destruct (step E st UiUpper) as [st' o]. assert (o = outs) by congruence. subst o. destruct outs as [|[] [|]]; try discriminate R; injection K as <- _; reflexivity.
    - destruct (step E st UiLower) as [st' o]. assert (o = outs) by congruence. subst o. destruct outs as [|[] [|]]; try discriminate R; injection K as <- _; reflexivity. }
  assert (Fi : forall e' at_, fire E d e' at_ = (d', [(e, outs)]) -> dv_at d' = at_ /\ e = e').
  { intros e' at_ K. unfold fire in K. destruct (step E (dv_st d) e') as [st' o]. injection K as <- <- _. auto. }
  unfold press in H. destruct (dv_at d) as [i part|c i part| |]; [| |discriminate H..].
  all: destruct b.
  1, 4: left; destruct part; [|discriminate H]; unfold flow_prev in H; destruct i; [|eauto]; destruct (cell (dv_st d) _); eauto; discriminate H.
  1, 3: left; destruct (Nat.ltb _ _); [discriminate H|]; unfold flow_next in H; destruct (cell (dv_st d) (S i)); eauto; discriminate H.
  all: destruct (_ && _); [discriminate H|]; unfold validate in H; destruct (cell (dv_st d) i) eqn:C; try discriminate H; try (left; eapply Fi; exact H).
  1, 3: destruct both_approves; [left; eapply Fi; exact H|]; apply Fi in H as [_ ->]; right; eauto 6.
  all: destruct (bytes_eqb _ _); [left; eapply Fi; exact H|]; destruct (bytes_eqb _ _); [left; eapply Fi; exact H|discriminate H].
Qed.

Definition strings_apart : bytes_eqb (str "Back") (str "About") = false /\ bytes_eqb (str "Quit") (str "About") = false /\ bytes_eqb (str "Quit") (str "Back") = false.
Proof. repeat split; vm_compute; reflexivity. Qed.
Lemma idle_arrive : forall E U tr st pg i fw, homely tr st -> (i < 3)%nat ->
  exists d, arrive E U st pg i fw = (d, []) /\ dv_at d <> P_OFF /\ idling U tr d.
Proof.
  intros E U tr st pg i fw F Li. exists (land U st pg i fw). destruct (idle_cell tr st i F Li pg) as (c & C & Hc). split; [|split; [discriminate|]].
  - unfold arrive. destruct (cell st i) eqn:K; try reflexivity; discriminate C.
  - right. unfold land. rewrite C. exists i, (if fw then O else extra U c), c. split; [exact Li|]. split; [destruct fw; lia|]. split; [exact Hc|]. left. split; [reflexivity|exact C].
Qed.
Lemma home_start : forall U tr d, homely tr (dv_st d) -> dv_at d = P_AT 0 0 -> idling U tr d.
Proof.
  intros U tr d H A. right. destruct (idle_cell tr (dv_st d) 0 H ltac:(lia) (dv_page d)) as (c & C & Hc). exists 0%nat, 0%nat, c.
  split; [lia|]. split; [lia|]. split; [exact Hc|]. left. auto.
Qed.
Lemma idle_press : forall E U tr d b, homely tr (dv_st d) -> idling U tr d ->
  idling U tr (fst (press E U d b)) /\
  (snd (press E U d b) = [] \/
   b = BOTH /\ displayed d = Some (C_BUTTON (str "About"), O) /\ snd (press E U d b) = [(UiAbout, [])] \/
   b = BOTH /\ displayed d = Some (C_BUTTON (str "Back"), O) /\ snd (press E U d b) = [(UiBack, [])]) /\
  (dv_at (fst (press E U d b)) = P_OFF -> dv_at d = P_OFF \/ b = BOTH /\ displayed d = Some (C_BUTTON (str "Quit"), O) /\ snd (press E U d b) = []).
Proof.
  intros E U tr d b F [Off|(i & p & c & Li & Lp & Hc & A)].
  { unfold press. rewrite Off. cbn [fst snd]. split; [left; exact Off|]. auto. }
  set (goal := fun (r : device * list obs) => idling U tr (fst r) /\
    (snd r = [] \/ b = BOTH /\ displayed d = Some (C_BUTTON (str "About"), O) /\ snd r = [(UiAbout, [])] \/
     b = BOTH /\ displayed d = Some (C_BUTTON (str "Back"), O) /\ snd r = [(UiBack, [])]) /\
    (dv_at (fst r) = P_OFF -> dv_at d = P_OFF \/ b = BOTH /\ displayed d = Some (C_BUTTON (str "Quit"), O) /\ snd r = [])).
  change (goal (press E U d b)).
  assert (Id : idling U tr d) by (right; exists i, p, c; auto).
  assert (Same : goal (d, [])) by (split; [exact Id|]; split; [left; reflexivity|]; intros K; left; exact K).
  assert (Ar : forall j fw, (j < 3)%nat -> goal (arrive E U (dv_st d) (dv_page d) j fw)).
  { intros j fw Lj. destruct (idle_arrive E U tr (dv_st d) (dv_page d) j fw F Lj) as (x & -> & K & Ix). split; [exact Ix|]. split; [left; reflexivity|]. intros K'. contradiction. }
  assert (Sub : forall at_ q, (q <= extra U c)%nat -> (at_ = P_AT i q /\ card_of (dv_page d) (cell (dv_st d) i) = Some c \/ at_ = P_WAS c i q /\ i = O) ->
                goal (mk_device (dv_st d) (dv_page d) at_, [])).
  { intros at_ q Lq Ha. split; [right; exists i, q, c; auto|]. split; [left; reflexivity|]. destruct Ha as [[-> _]|[-> _]]; discriminate. }
  assert (Nx : goal (flow_next E U d i)).
  { unfold flow_next. pose proof F as (h & _ & F0). unfold cell. destruct i as [|[|[|i]]]; [| | |lia]; destruct F0 as [[_ ->]|[_ ->]]; cbn [nth menu_tail about_tail]; apply Ar; lia. }
  assert (Pv : goal (flow_prev E U d i)).
  { unfold flow_prev. destruct i as [|i]; [|apply Ar; lia]. pose proof F as (h & _ & F0). unfold cell. destruct F0 as [[_ ->]|[_ ->]]; cbn [nth length Nat.sub menu_tail about_tail]; apply Ar; lia. }
  assert (Va : b = BOTH -> goal (validate E d i p)).
  { intros ->. pose proof F as (h & Hh & F0). unfold validate, cell. destruct i as [|[|[|i]]]; [| | |lia].
    - destruct F0 as [[_ ->]|[_ ->]]; cbn [nth]; destruct Hh as [-> |[-> |(t & _ & ->)]]; exact Same.
    - destruct A as [[A C]|[_ K]]; [|discriminate K]. unfold cell in C. destruct F0 as [[Fu F0]|[Fu F0]]; rewrite F0 in C |- *; cbn [nth menu_tail about_tail] in C |- *; [|exact Same].
      cbn [card_of] in C. injection C as <-. cbn [extra] in Lp. replace p with 0%nat in * by lia.
      replace (bytes_eqb (str "About") (str "About")) with true by (vm_compute; reflexivity). unfold fire. cbn [step]. rewrite Fu.
      split; [apply home_start; [apply homely_about|reflexivity]|]. cbn [fst snd]. split; [|discriminate]. right. left. split; [reflexivity|]. split; [|reflexivity].
      unfold displayed, cell. rewrite A, F0. reflexivity.
    - destruct A as [[A C]|[_ K]]; [|discriminate K]. unfold cell in C. destruct F0 as [[Fu F0]|[Fu F0]]; rewrite F0 in C |- *; cbn [nth menu_tail about_tail] in C |- *;
        cbn [card_of] in C; injection C as <-; cbn [extra] in Lp; replace p with 0%nat in * by lia.
      + destruct strings_apart as (_ & -> & ->). split; [left; reflexivity|]. split; [left; reflexivity|]. intros _. right. split; [reflexivity|]. split; [|reflexivity].
        unfold displayed, cell. rewrite A, F0. reflexivity.
      + destruct strings_apart as (-> & _ & _). replace (bytes_eqb (str "Back") (str "Back")) with true by (vm_compute; reflexivity). unfold fire. cbn [step]. rewrite Fu.
        split; [apply home_start; [apply homely_menu|reflexivity]|]. cbn [fst snd]. split; [|discriminate]. right. right. split; [reflexivity|]. split; [|reflexivity].
        unfold displayed, cell. rewrite A, F0. reflexivity. }
  clearbody goal. unfold press. destruct A as [[A C]|[A ->]]; rewrite A; [rewrite C|]; destruct b.
  1, 4: destruct p as [|p]; [exact Pv|eapply Sub; [|eauto]; lia].
  1, 3: destruct (Nat.ltb_spec p (extra U c)); [eapply Sub; [|eauto]; lia|exact Nx].
  all: destruct (_ && _); [exact Same|apply Va; reflexivity].
Qed.

Lemma idle_run : forall E U key l d, env_ok E -> operated E U key l d -> on_screen (happened l) = None -> idling U (happened l) d.
Proof.
  intros E U key l d Henv. revert d. induction l as [|[a os] l IH] using rev_ind; intros d H Ho.
  - inversion H as [K|? ? ? ? ? ? ? ? ? K]; [|exfalso; eapply app_cons_not_nil; symmetry; exact K]. apply home_start; [apply homely_menu|reflexivity].
  - pose proof (operated_history _ _ _ _ _ H) as Hh. apply operated_last in H as (d0 & H0 & Ha & Hop & Hso). rewrite happened_snoc in Ho, Hh |- *.
    pose proof (operated_history _ _ _ _ _ H0) as Hh0. destruct a as [e|b]; cbn [operate] in Hop.
    + destruct Ha as [Hu _]. destruct (receive_shape _ _ _ _ _ Hop) as [(_ & -> & ->)|(outs & _ & -> & Es & Epg & Eat)]; [rewrite app_nil_r in Ho |- *; auto|].
      rewrite on_screen_snoc in Ho. unfold question_after in Ho. cbn [fst snd] in Ho. destruct (shown_by outs) as [[[k' f'] pages']|] eqn:Sb; [discriminate|]. rewrite Hu in Ho. cbn [andb] in Ho.
      apply sound_one in Hso as [Hd _]. pose proof (idle_busy _ _ _ _ Henv Hh0 Ho) as B0.
      eapply idle_kept; [apply quiet_one; exact Sb|apply IH; [exact H0|exact Ho]|eapply menus_hold; eassumption|eapply idle_host; eassumption|exact Epg|exact Eat].
    + destruct (on_screen (happened l)) as [[[[q k] f] pages]|] eqn:Ho0.
      * (* a question was answered *)
        destruct (press_single _ _ _ _ _ _ Hop) as [[-> _]|(e & outs & -> & Hu & Es)]; [rewrite app_nil_r in Ho; congruence|].
        rewrite on_screen_snoc, Ho0 in Ho. unfold question_after in Ho. cbn [fst snd] in Ho. destruct (shown_by outs) as [[[k' f'] pages']|]; [discriminate|].
        rewrite Hu in Ho. destruct (responds outs) eqn:R; [|discriminate]. clear Ho. assert (Ho' : on_screen (happened l ++ [(e, outs)]) = None).
        { rewrite on_screen_snoc, Ho0. unfold question_after. cbn [fst snd]. rewrite (user_no_show _ _ _ _ _ _ Hh Hu), Hu, R. reflexivity. }
        destruct (press_home _ _ _ _ _ _ _ Hop R) as [A|(-> & i & t & x & C)].
        -- apply home_start; [|exact A]. eapply menus_hold; [exact Henv|exact Hh|eapply idle_busy; eassumption].
        -- exfalso. destruct (screen_state _ _ _ _ _ _ _ _ Henv Hh0 Ho0) as (_ & Uk & F & _).
           assert (Hin : In (SC_PATH t x false) f).
           { rewrite <- F, <- C. unfold cell in *. apply nth_In. destruct (Nat.lt_ge_cases i (length (st_flow (dv_st d0)))) as [L|L]; [exact L|]. rewrite nth_overflow in C by assumption. discriminate C. }
           destruct (path_form _ _ _ _ _ _ _ _ _ _ _ Henv Hh0 Ho0 Hin) as [[_ K]|[Hk _]]; [discriminate K|].
           cbn [step] in Es. unfold ui_path_both in Es. rewrite Uk in Es. destruct Hk as [-> | ->]; injection Es as _ <-; discriminate R.
      * pose proof (idle_press E U _ d0 b (menus_hold _ _ _ _ Henv Hh0 (idle_busy _ _ _ _ Henv Hh0 Ho0)) (IH _ H0 eq_refl)) as [K [K2 _]]. rewrite Hop in K, K2. cbn [snd] in K2. apply idling_more; [|exact K].
        destruct K2 as [-> |[(_ & _ & ->)|(_ & _ & ->)]]; [constructor|apply quiet_one; reflexivity..].
Qed.

Lemma menu_card : forall E U key l d, env_ok E -> operated E U key l d -> on_screen (happened l) = None ->
  displayed d = None \/
  exists c p, displayed d = Some (c, p) /\ (In (Some c) menu_cards \/ exists t, left_over (happened l) t /\ c = C_INFO t) /\ (p <= extra U c)%nat /\
    forall b, snd (press E U d b) = [] \/
      b = BOTH /\ c = C_BUTTON (str "About") /\ snd (press E U d b) = [(UiAbout, [])] \/
      b = BOTH /\ c = C_BUTTON (str "Back") /\ snd (press E U d b) = [(UiBack, [])].
Proof.
  intros E U key l d Henv H Ho. pose proof (idle_run _ _ _ _ _ Henv H Ho) as I1. pose proof (operated_history _ _ _ _ _ H) as Hh.
  pose proof (menus_hold _ _ _ _ Henv Hh (idle_busy _ _ _ _ Henv Hh Ho)) as Mn. pose proof (fun b => idle_press E U _ d b Mn I1) as Pr.
  destruct I1 as [Off|(i & p & c & Li & Lp & Hc & A)]; [left; unfold displayed; rewrite Off; reflexivity|]. right. exists c, p.
  assert (Dp : displayed d = Some (c, p)) by (unfold displayed; destruct A as [[-> ->]|[-> _]]; reflexivity). split; [exact Dp|]. split; [exact Hc|]. split; [exact Lp|]. intros b.
  destruct (Pr b) as (_ & K & _). rewrite Dp in K.
  destruct K as [K|[(-> & K1 & K2)|(-> & K1 & K2)]]; [auto|right; left|right; right]; (split; [reflexivity|]; split; [congruence|exact K2]).
Qed.

Lemma shown_or_off : forall E U key l d, env_ok E -> operated E U key l d -> displayed d = None -> dv_at d = P_OFF /\ on_screen (happened l) = None.
Proof.
  intros E U key l d Henv H Dn. destruct (on_screen (happened l)) as [[[[q k] f] pages]|] eqn:Ho.
  - exfalso. destruct (was_put _ _ _ _ _ _ _ _ _ Henv H Ho) as (l1 & l2 & -> & Hput & Hs).
    destruct (question_cards _ _ _ _ _ _ _ _ _ Henv H Hput Hs) as (n & p & c & K & _). congruence.
  - split; [|reflexivity]. destruct (idle_run _ _ _ _ _ Henv H Ho) as [Off|(i & p & c & Li & Lp & Hc & A)]; [exact Off|]. exfalso.
    unfold displayed in Dn. destruct A as [[A C]|[A _]]; rewrite A in Dn; [rewrite C in Dn|]; discriminate Dn.
Qed.
Lemma off_stays : forall E U key l d, env_ok E -> operated E U key l d -> displayed d = None ->
  forall l2 d2, operated E U key (l ++ l2) d2 -> d2 = d /\ happened l2 = [].
Proof.
  intros E U key l d Henv H Dn l2. destruct (shown_or_off _ _ _ _ _ Henv H Dn) as [Off _].
  induction l2 as [|[a os] l2 IH] using rev_ind; intros d2 H2; [rewrite app_nil_r in H2; split; [eapply operated_det; eauto|reflexivity]|].
  rewrite app_assoc in H2. apply operated_last in H2 as (d1 & H1 & Ha & Hop & _). destruct (IH _ H1) as [-> F]. rewrite happened_snoc, F.
  destruct a as [e|b]; cbn [operate] in Hop; unfold receive, press in Hop; rewrite Off in Hop; injection Hop as <- <-; auto.
Qed.
Lemma off_quit : forall E U key l d, env_ok E -> operated E U key l d -> displayed d = None ->
  exists l1 l2 d1, l = l1 ++ (Press BOTH, []) :: l2 /\ operated E U key l1 d1 /\ on_screen (happened l1) = None /\ displayed d1 = Some (C_BUTTON (str "Quit"), O).
Proof.
  intros E U key l d Henv. revert d. induction l as [|[a os] l IH] using rev_ind; intros d H Dn.
  - exfalso. inversion H as [K|? ? ? ? ? ? ? ? ? K]; [|eapply app_cons_not_nil; symmetry; exact K]. subst d. vm_compute in Dn. discriminate.
  - destruct (shown_or_off _ _ _ _ _ Henv H Dn) as [Off Ho]. apply operated_last in H as (d0 & H0 & Ha & Hop & Hso).
    assert (Back : displayed d0 = None -> exists l1 l2 d1, l ++ [(a, os)] = l1 ++ (Press BOTH, []) :: l2 /\ operated E U key l1 d1 /\ on_screen (happened l1) = None /\ displayed d1 = Some (C_BUTTON (str "Quit"), O)).
    { intros K. destruct (IH _ H0 K) as (l1 & l2 & d1 & -> & R). exists l1, (l2 ++ [(a, os)]), d1. split; [rewrite <- app_assoc; reflexivity|exact R]. }
    destruct a as [e|b]; cbn [operate] in Hop.
    + apply Back. destruct (receive_shape _ _ _ _ _ Hop) as [(_ & _ & <-)|(outs & No & _ & _ & _ & Eat)]; [exact Dn|]. exfalso. rewrite Off in Eat. destruct (shown_by outs); [discriminate Eat|]. unfold kept in Eat.
      destruct (dv_at d0); try congruence. destruct (screen_dec _ _); [discriminate Eat|]. destruct (card_of _ _); discriminate Eat.
    + destruct (on_screen (happened l)) as [[[[q k] f] pages]|] eqn:Ho0.
      * exfalso. pose proof (operated_history _ _ _ _ _ H0) as Hh0. destruct (was_put _ _ _ _ _ _ _ _ _ Henv H0 Ho0) as (l1 & l2 & -> & Hput & Hs).
        destruct (answered (Press b, os)) eqn:An.
        -- assert (Hall : operated E U key ((l1 ++ l2) ++ [(Press b, os)]) d) by (eapply operated_more; eauto).
           pose proof (decides _ _ _ _ _ _ _ _ _ Henv _ _ _ Hput Hs H0 Hall An) as D.
           assert (On : exists e x s, os = [(e, [OResp x s])]) by (destruct D as [(_ & _ & x & s & ->)|[(_ & _ & ->)|[(_ & _ & _ & x & s & ->)|(_ & e & s & _ & _ & _ & ->)]]]; eauto).
           destruct On as (e & x & s & ->). destruct (press_home _ _ _ _ _ _ _ Hop eq_refl) as [A|(-> & i & t & y & C)]; [congruence|].
           destruct (screen_state _ _ _ _ _ _ _ _ Henv Hh0 Ho0) as (_ & Uk & F & _).
           assert (Hin : In (SC_PATH t y false) f).
           { rewrite <- F, <- C. unfold cell in *. apply nth_In. destruct (Nat.lt_ge_cases i (length (st_flow (dv_st d0)))) as [L|L]; [exact L|]. rewrite nth_overflow in C by assumption. discriminate C. }
           destruct (path_form _ _ _ _ _ _ _ _ _ _ _ Henv Hh0 Ho0 Hin) as [[_ K]|[Hk _]]; [discriminate K|].
           destruct D as [(_ & _ & x' & s' & D)|[(_ & _ & D)|[(_ & D & _)|(_ & e & s' & He & _ & _ & D)]]]; try discriminate D; [destruct Hk; congruence|]. destruct He; congruence.
        -- assert (Hall : operated E U key (l1 ++ l2 ++ [(Press b, os)]) d) by (rewrite app_assoc; eapply operated_more; eauto).
           destruct (question_cards _ _ _ _ _ _ _ _ _ Henv Hall Hput) as (n & p & c & K & _); [apply still_snoc; auto|]. congruence.
      * pose proof (operated_history _ _ _ _ _ H0) as Hh0.
        pose proof (idle_press E U _ d0 b (menus_hold _ _ _ _ Henv Hh0 (idle_busy _ _ _ _ Henv Hh0 Ho0)) (idle_run _ _ _ _ _ Henv H0 Ho0)) as (_ & _ & K). rewrite Hop in K. cbn [fst snd] in K.
        destruct (K Off) as [Off0|(-> & Dp & ->)]; [apply Back; unfold displayed; rewrite Off0; reflexivity|]. exists l, [], d0. auto.
Qed.

(** ** Summaries *)

Lemma put_iff : forall E U key l d k f pages, env_ok E -> operated E U key l d ->
  ((exists q, on_screen (happened l) = Some (q, k, f, pages)) <-> exists l1 l2, l = l1 ++ l2 /\ put l1 k f pages /\ still l2).
Proof.
  intros E U key l d k f pages Henv H. split.
  - intros [q Ho]. eapply was_put; eauto.
  - intros (l1 & l2 & -> & Hput & Hs). destruct (question_run _ _ _ _ _ _ _ _ _ Henv Hput H Hs) as [K _]. exact K.
Qed.
Lemma frozen_question : forall E U key l l' d k f pages, env_ok E -> put l k f pages -> still l' -> operated E U key (l ++ l') d -> dead E U d ->
  forall l2 d2, operated E U key ((l ++ l') ++ l2) d2 -> d2 = d /\
    Forall (fun x => match fst x with Press _ => snd x = [] | Host e => exists b s, snd x = [(e, [OResp b s])] end) l2 /\
    exists q, on_screen (happened ((l ++ l') ++ l2)) = Some (q, k, f, pages).
Proof.
  intros E U key l l' d k f pages Henv Hput Hs H Dd l2 d2 H2. destruct (frozen _ _ _ _ _ _ _ _ _ Henv Hput Hs H Dd l2 d2 H2) as [-> F].
  split; [reflexivity|]. split; [exact F|]. apply (put_iff _ _ _ _ _ _ _ _ Henv H2). exists l, (l' ++ l2). split; [rewrite app_assoc; reflexivity|]. split; [exact Hput|].
  unfold still in *. apply Forall_app. split; [exact Hs|]. eapply Forall_impl; [|exact F]. intros [a' os'] K. cbn [fst snd] in *. destruct a'; [exact I|]. rewrite K. reflexivity.
Qed.
Lemma reads_signed : forall E U key l os d o sig, env_ok E -> operated E U key (l ++ [(Press BOTH, os)]) d -> In o os -> signature o = Some sig ->
  exists l1 l2 f pages, l = l1 ++ l2 /\ put l1 U_STX_TX f pages /\ still l2 /\
    (seen E U key l1 l2 C_REJECT O \/
     forall oc, In oc (cards f pages) -> exists c, oc = Some c /\ (c = C_REJECT \/ forall p, (p <= extra U c)%nat -> seen E U key l1 l2 c p)).
Proof.
  intros E U key l os d o sig Henv H Hin S. destruct (sign_press _ _ _ _ _ _ _ _ _ Henv H Hin S) as (_ & d0 & l1 & l2 & f & pages & H0 & Dp & -> & Hput & Hs).
  exists l1, l2, f, pages. split; [reflexivity|]. split; [exact Hput|]. split; [exact Hs|].
  eapply reads; eauto.
Qed.
