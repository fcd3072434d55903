(** The way out of a question, on the whole device. *)
From Verif Require Import Lib Env TxTable UiFlow P2pkOp App SpecTree SpecTrace SpecTx SpecAmounts SpecApdu
  SpecScreen SpecRequest SpecSign SpecRules SpecAccept SpecAttest SpecStart TraceScreen TraceShow DispatchProofs SessionProofs
  SpecRaw Wire SpecWire Buttons SpecButtons ButtonProofs ButtonRun ButtonOut Whole SpecWhole WholeProofs WholeAll SpecHost SpecWallet WalletProofs WalletRun.
From Verif Require PropWire PropButtons.

#[local] Arguments N.eqb : simpl never.
#[local] Arguments N.ltb : simpl never.
#[local] Arguments N.leb : simpl never.
#[local] Arguments N.sub : simpl never.
#[local] Arguments blen : simpl never.
#[local] Arguments num : simpl never.
#[local] Arguments slice : simpl never.
#[local] Arguments app : simpl never.

Lemma all_told : forall E U key tr l d, env_ok E -> operated E U key l d -> tells_of E U key tr l -> displayed d <> None -> on_screen (happened l) = None -> all_answered tr.
Proof.
  intros E U key tr l d Henv H (T1 & T2 & _) D Q. assert (Hd : dv_at d <> P_OFF) by (intro K; apply D; unfold displayed; rewrite K; reflexivity).
  unfold all_answered. rewrite (arrived_count _ _ T1), T2, sent_count, <- (counted _ _ _ _ _ Henv H Hd).
  pose proof (PropWire.C72_count _ _ _ _ Henv (operated_history _ _ _ _ _ H)) as C. unfold open_questions in C. rewrite Q in C. lia.
Qed.

(** Right does nothing. *)
Definition dull (E : env) (U : ux) (d : device) : Prop :=
  exists d', press E U d RIGHT = (d', []) /\ dv_at d' = dv_at d /\ (st_busy (dv_st d) = true -> dv_st d' = dv_st d).
Lemma dull_dead : forall E U key l l' d k f pages, env_ok E -> put l k f pages -> operated E U key (l ++ l') d -> still l' ->
  dull E U d -> exists i p, dv_at d = P_DEAD i p.
Proof.
  intros E U key l l' d k f pages Henv Hput H Hs (d' & P & Ea & Es). pose proof (operated_history _ _ _ _ _ H) as Hh.
  destruct (question_run _ _ _ _ _ _ _ _ _ Henv Hput H Hs) as ((e0 & Ho) & i & n & p & bs0 & St & Tu & Pl). destruct Pl as [[Pl _]|(Pl & _)]; [|eauto]. exfalso.
  specialize (Es (screen_busy _ _ _ _ _ Henv Hh Ho)).
  destruct (cards_end _ _ _ _ _ _ _ _ Henv Hh Ho) as (pre & Ec & _). assert (Lc : (2 <= length (cards f pages))%nat) by (rewrite Ec, app_length; cbn [length]; lia).
  destruct (question_press _ _ _ _ _ _ _ _ _ _ _ _ _ _ _ Henv Hh Ho Pl St P (or_intror (Forall_nil _))) as [[(i' & n' & p' & A' & St' & Tn) Q]|[D|(K & _)]]; [| |discriminate K].
  - rewrite Ea, Pl in A'. injection A' as <- <-. pose proof (proj1 St') as K. rewrite Es in K. rewrite <- (at_card_det _ _ _ _ (proj1 St) K) in Tn. inversion Tn; subst; lia.
  - destruct D as [(K & _)|[(K & _)|[(K & _)|(_ & e & s & _ & _ & _ & K)]]]; discriminate K.
Qed.
(** Only off or at the path of a key or address request is a device dead. *)
Lemma menu_alive : forall E U key l d, env_ok E -> operated E U key l d -> on_screen (happened l) = None -> dv_at d <> P_OFF -> ~ dull E U d.
Proof.
  intros E U key l d Henv H Ho No (d' & D & Ea & _). pose proof (operated_history _ _ _ _ _ H) as Hh. pose proof (idle_busy _ _ _ _ Henv Hh Ho) as B.
  pose proof (menus_hold _ _ _ _ Henv Hh B) as (h & _ & F). pose proof (idle_plain _ _ _ _ Henv Hh B) as Pl.
  destruct (idle_run _ _ _ _ _ Henv H Ho) as [Off|(i & p & c & Li & Lp & Hc & A)]; [contradiction|].
  assert (Nx : exists j, (j < 3)%nat /\ j <> i /\ exists fw, flow_next E U d i = (land U (dv_st d) (dv_page d) j fw, [])).
  { unfold flow_next, cell. destruct i as [|[|[|i]]]; [exists 1%nat|exists 2%nat|exists 0%nat|lia]; (split; [lia|]; split; [lia|]); destruct F as [[_ F]|[_ F]]; rewrite F; cbn [nth menu_tail about_tail]; rewrite arrive_plain by exact Pl; eexists; reflexivity. }
  destruct Nx as (j & _ & Nj & fw & Nx). unfold press in D.
  destruct A as [[A C]|[A ->]]; rewrite A in D; [rewrite C in D|]; (destruct (Nat.ltb_spec p (extra U c)) as [L|L]; [|rewrite Nx in D]); apply (f_equal (fun x => dv_at (fst x))) in D; cbn [fst dv_at land] in D; rewrite Ea, A in D.
  - injection D as K. lia.
  - injection D as K _. contradiction.
  - injection D as K. lia.
  - discriminate D.
Qed.
Lemma dead_device : forall E U key l d, env_ok E -> operated E U key l d -> dull E U d -> displayed d = None \/
  exists l1 l2 k f pages, l = l1 ++ l2 /\ put l1 k f pages /\ still l2 /\ (k = U_EPK \/ k = U_DA) /\ In BOTH (pressed l2) /\ exists t x p, displayed d = Some (C_TEXT t x, p).
Proof.
  intros E U key l d Henv H D. destruct (on_screen (happened l)) as [[[[q k] f] pages]|] eqn:Ho.
  - right. destruct (was_put _ _ _ _ _ _ _ _ _ Henv H Ho) as (l1 & l2 & -> & Hput & Hs). exists l1, l2, k, f, pages. split; [reflexivity|]. split; [exact Hput|]. split; [exact Hs|].
    destruct (dull_dead _ _ _ _ _ _ _ _ _ Henv Hput H Hs D) as (i & p & Pd).
    destruct (question_run _ _ _ _ _ _ _ _ _ Henv Hput H Hs) as (_ & i' & n & p' & bs0 & St & Tu & Pl). destruct Pl as [[Pl _]|(Pl & Kk & (rest & Er) & t & x & C)]; [congruence|].
    split; [exact Kk|]. split; [rewrite Er; apply in_or_app; right; left; reflexivity|]. exists t, x, p'. unfold displayed. rewrite Pl, C. reflexivity.
  - left. destruct (displayed d) eqn:Dp; [|reflexivity]. exfalso. apply (menu_alive E U key l d Henv H Ho); [|exact D]. intros K. unfold displayed in Dp. rewrite K in Dp. discriminate Dp.
Qed.

Section Out.
  Variables (E : env) (U : ux) (mem : state) (page : text * text) (io key : bytes).
  Hypothesis Henv : env_ok E.
  Hypothesis Hio : blen io = 260.
  Notation step_with := (in_step E U mem page io key).

  Lemma follow_any : forall k f pages l1 l2 tr w l' d d2, put l1 k f pages -> still l' -> step_with tr w (l1 ++ l') d -> operated E U key ((l1 ++ l') ++ l2) d2 ->
    Forall (fun x => exists b, fst x = Press b /\ b <> BOTH /\ answered x = false) l2 ->
    exists tr2 w2, step_with (tr ++ tr2) w2 ((l1 ++ l') ++ l2) d2 /\ length tr2 = length l2 /\ Forall (fun m => (exists b, mo_act m = Presses b /\ b <> BOTH) /\ mo_sent m = []) tr2.
  Proof.
    intros k f pages l1 l2. induction l2 as [|[a os] l2 IH] using rev_ind; intros tr w l' d d2 Pu St S H2 F.
    - exists [], w. rewrite !app_nil_r in *. assert (d2 = d) as -> by (destruct S as (_ & O & _); eapply operated_det; eassumption). split; [exact S|]. split; [reflexivity|constructor].
    - apply Forall_app in F as [F Fa]. apply Forall_inv in Fa as (b & Ea & Nb & An). cbn [fst] in Ea. subst a. rewrite app_assoc in H2. pose proof H2 as H3. apply operated_last in H3 as (d1 & H1 & _).
      destruct (IH tr w l' d d1 Pu St S H1 F) as (tr2 & w2 & S2 & L2 & F2).
      assert (St2 : still (l' ++ l2)). { unfold still in *. apply Forall_app. split; [exact St|]. eapply Forall_impl; [|exact F]. intros [a' os'] (b' & E1 & _ & E2). cbn [fst] in E1. subst a'. exact E2. }
      assert (B : st_busy (dv_st d1) = true).
      { destruct (proj2 (PropButtons.C66_put E U key _ d1 k f pages Henv H1)) as (q & Q); [exists l1, (l' ++ l2); split; [rewrite app_assoc; reflexivity|split; [exact Pu|exact St2]]|].
        eapply screen_busy; [exact Henv|exact (operated_history _ _ _ _ _ H1)|exact Q]. }
      destruct (follow_one E U mem page io key Henv Hio _ _ _ _ _ _ _ S2 B H2) as (w3 & S3). eexists (tr2 ++ [_]), w3. rewrite !app_assoc. split; [exact S3|]. split; [rewrite !app_length, L2; reflexivity|].
      apply Forall_app. split; [exact F2|]. constructor; [|constructor]. cbn [mo_act mo_sent]. split; [eauto|].
      destruct (press_single E U d1 b d2 os) as [[-> _]|(ue & outs & -> & Hu & _)].
      { apply operated_last in H2 as (d0 & H0 & _ & Hop & _). assert (d0 = d1) as -> by (eapply operated_det; eassumption). exact Hop. }
      { reflexivity. }
      pose proof (operated_history _ _ _ _ _ H2) as Hh2. rewrite happened_snoc in Hh2.
      destruct (PropWire.C72_user _ _ _ _ _ _ Henv Hh2 Hu) as [-> |[(i & ti & bo & ->)|[-> |(xb & xs & -> & _)]]]; try reflexivity. discriminate An.
  Qed.

  Lemma back_home : forall tr w, goes_on E U (power_on mem page io key) tr w -> ~ dead E U (wh_dev w) ->
    exists tr1 w1, goes_on E U (power_on mem page io key) (tr ++ tr1) w1 /\ all_answered (tr ++ tr1) /\ displayed (wh_dev w1) <> None /\
      (tr1 = [] \/ exists tr2 m, tr1 = tr2 ++ [m] /\ Forall (fun m => (exists b, mo_act m = Presses b /\ b <> BOTH) /\ mo_sent m = []) tr2 /\
        mo_act m = Presses BOTH /\ mo_sent m = [[0x69; 0x85]]).
  Proof.
    intros tr w G Nd. destruct (run_told _ _ _ _ _ _ _ _ Henv Hio G) as (l & d & O & A & _ & T). assert (S : step_with tr w l d) by exact (conj G (conj O (conj A T))).
    assert (Dw : displayed d <> None).
    { intros K. destruct (shown_or_off _ _ _ _ _ Henv O K) as [Off _]. apply Nd. apply (dead_place E U _ 0 0). right. rewrite (akin_at _ _ A). exact Off. }
    assert (Sh : forall tr w l d, step_with tr w l d -> displayed (wh_dev w) = displayed d).
    { intros tr' w' l' d' (_ & O' & A' & _). eapply akin_displayed; [exact Henv|exact (operated_history _ _ _ _ _ O')|exact A']. }
    destruct (on_screen (happened l)) as [[[[q k] f] pages]|] eqn:Q.
    2: { exists [], w. rewrite app_nil_r. split; [exact G|]. split; [eapply all_told; eauto|]. split; [rewrite (Sh _ _ _ _ S); exact Dw|left; reflexivity]. }
    destruct (was_put _ _ _ _ _ _ _ _ _ Henv O Q) as (l1 & l' & -> & Pu & St).
    assert (Nd' : ~ dead E U d).
    { intros K. destruct (dead_dead _ _ _ _ _ _ _ _ _ Henv Pu O St K) as (i & p & Pl). apply Nd. apply (dead_place E U _ i p). left. rewrite (akin_at _ _ A). exact Pl. }
    destruct (way_out _ _ _ _ _ _ _ _ _ Henv Pu St O Nd') as (l2 & d2 & H2 & _ & F & Nq & x & D2).
    pose proof H2 as H3. rewrite app_assoc in H3. destruct (operated_last _ _ _ _ _ _ _ H3) as (d1 & H1 & _).
    destruct (follow_any _ _ _ _ _ _ _ _ _ _ Pu St S H1 F) as (tr2 & w2 & S2 & _ & F2).
    assert (B : st_busy (dv_st d1) = true).
    { assert (St2 : still (l' ++ l2)). { apply Forall_app. split; [exact St|]. eapply Forall_impl; [|exact F]. intros [a' os'] (b' & E1 & _ & E2). cbn [fst] in E1. subst a'. exact E2. }
      destruct (proj2 (PropButtons.C66_put E U key _ d1 k f pages Henv H1)) as (q' & Q'); [exists l1, (l' ++ l2); split; [rewrite app_assoc; reflexivity|split; [exact Pu|exact St2]]|].
      eapply screen_busy; [exact Henv|exact (operated_history _ _ _ _ _ H1)|exact Q']. }
    destruct (follow_one E U mem page io key Henv Hio _ _ _ _ _ _ _ S2 B H3) as (w3 & S3). eexists (tr2 ++ [_]), w3. rewrite app_assoc.
    split; [exact (proj1 S3)|]. pose proof S3 as (_ & O3 & _ & T3). split; [eapply all_told; [exact Henv|exact O3|exact T3|congruence|rewrite <- app_assoc; exact Nq]|].
    split; [rewrite (Sh _ _ _ _ S3); congruence|]. right. eexists tr2, _. split; [reflexivity|]. split; [exact F2|]. split; reflexivity.
  Qed.
End Out.

(** Dead on the whole device. *)
Lemma stuck : forall E U mem page io key tr w, env_ok E -> blen io = 260 -> goes_on E U (power_on mem page io key) tr w -> dead E U (wh_dev w) ->
  displayed (wh_dev w) = None \/
  exists l1 l2 k f pages, tells_of E U key tr (l1 ++ l2) /\ put l1 k f pages /\ still l2 /\ (k = U_EPK \/ k = U_DA) /\ In BOTH (pressed l2) /\ exists t x p, displayed (wh_dev w) = Some (C_TEXT t x, p).
Proof.
  intros E U mem page io key tr w Henv Hio G D. destruct (run_told _ _ _ _ _ _ _ _ Henv Hio G) as (l & d & O & A & _ & T).
  rewrite (akin_displayed _ _ _ _ _ Henv (operated_history _ _ _ _ _ O) A).
  assert (Dd : dull E U d).
  { destruct (operate_akin E U key (happened l) (wh_dev w) d (Press RIGHT) (wh_dev w) [] Henv (operated_history _ _ _ _ _ O) A I (D RIGHT) (Forall_nil _)) as (d1 & P & A1).
    exists d1. split; [exact P|]. split; [rewrite <- (akin_at _ _ A1); exact (akin_at _ _ A)|]. intros B.
    pose proof (near_busy _ _ (akin_near _ _ A) B) as E1. rewrite <- E1 in B. pose proof (near_sym _ _ (akin_near _ _ A1)) as K. rewrite (near_busy _ _ K B). exact E1. }
  destruct (dead_device _ _ _ _ _ Henv O Dd) as [K|(l1 & l2 & k & f & pages & -> & K)]; [left; exact K|right]. exists l1, l2, k, f, pages. destruct K as (K1 & K2 & K3 & K4 & K5). auto 8.
Qed.

Lemma serves : forall E U mem page io key tr w p r, env_ok E -> blen io = 260 -> goes_on E U (power_on mem page io key) tr w -> ~ dead E U (wh_dev w) ->
  tx_fits E (pl_tx p) -> act_ok (Arrives (opening p) r) -> sign_request_ok E (pl_p2 p) (pl_start p) r ->
  exists tr1 tr2 w2 s, goes_on E U (power_on mem page io key) (tr ++ tr1 ++ tr2) w2 /\ Forall (fun m => exists b, mo_act m = Presses b) tr1 /\
    talks E p (tr ++ tr1) tr2 s false /\ good_end E p tr2 s.
Proof.
  intros E U mem page io key tr w p r He Hio G Nd Fit Ro Rq. destruct (back_home _ _ _ _ _ _ He Hio _ _ G Nd) as (tr1 & w1 & G1 & A1 & D1 & K).
  assert (G1' : goes_on E U (power_on mem page io key) ((tr ++ tr1) ++ []) w1) by (rewrite app_nil_r; exact G1).
  destruct (wallet_reaches E U mem page io key p (tr ++ tr1) [] w1 _ false r He Hio Fit G1' A1 (talks_start _ _ _)) as (tr2 & w2 & s & G2 & T & Ge); [discriminate|exact D1|exact Ro|exact Rq|].
  exists tr1, tr2, w2, s. rewrite <- app_assoc in G2. split; [exact G2|]. split; [|split; [exact T|exact Ge]].
  destruct K as [-> |(tr3 & m & -> & F & Em & _)]; [constructor|]. apply Forall_app. split; [|constructor; [eauto|constructor]]. eapply Forall_impl; [|exact F]. intros x ((b & Eb & _) & _). eauto.
Qed.
