(** What a signature can cost while calls into the operating system fail: C64 on the run
    without failures, carried back to the observations made. *)
From Verif Require Import Lib Base Env UiFlow P2pkOp App SpecApdu SpecTree SpecTrace SpecTx SpecAmounts SpecSign SpecScreen SpecRules SpecScript SpecNode SpecCost Moves CostProofs TraceScreen
  Fault LowApp SpecFault LowProofs FaultProofs.
#[local] Arguments N.eqb : simpl never.
#[local] Arguments blen : simpl never.
#[local] Arguments num : simpl never.

(** As [shadow], with the host and the user told apart. *)
Inductive echo : obs -> obs -> Prop :=
| ec_same : forall e e' outs, same_event e e' -> echo (e, outs) (e', outs)
| ec_refused : forall e e' s s', s <> SW_OK -> s' <> SW_OK -> by_user e = by_user e' -> echo (e, [OResp [] s]) (e', [OResp [] s']).

Lemma echoes : forall E key tr st, env_ok E -> fhistory E key tr st -> exists tr', Forall2 echo (map snd tr) tr' /\ history E key tr' st.
Proof.
  intros E key tr st HE H. induction H as [|tr st F e outs st' H IH HF HM He Hs Hd].
  - exists []. split; constructor.
  - destruct IH as (tr' & Hsh & Hh). rewrite map_app. cbn [map snd].
    destruct (fstep_cases E F HE HF HM st e He (history_shape _ _ _ _ Hh) (reachable_range _ _ _ _ HE Hh)) as [W|Fl].
    + destruct W as (e' & Se & Sc & Ke). rewrite Hs in Ke. exists (tr' ++ [(e', outs)]). split.
      * apply Forall2_app; [exact Hsh|]. constructor; [|constructor]. apply ec_same; assumption.
      * eapply history_step; [exact Hh|eapply same_event_ok; eassumption|symmetry; exact Ke|exact Hd].
    + destruct Fl as (Hc & s & e' & s' & Fs & Ko & Ke & Kst & Ns & _ & Bu). rewrite Hs in *. cbn [fst snd] in *. subst outs.
      exists (tr' ++ [(e', [OResp [] s'])]). split.
      * apply Forall2_app; [exact Hsh|]. constructor; [|constructor]. apply ec_refused; [apply fault_not_ok; exact Fs|exact Ns|].
        destruct (by_user e); [destruct Bu as [-> _]; reflexivity|symmetry; exact Bu].
      * eapply history_step; [exact Hh|exact Ke|exact Kst|apply resp_diverges].
Qed.

(** ** What an echo keeps *)
Lemma refused_accepted : forall s, s <> SW_OK -> accepted [OResp [] s] = false.
Proof. intros s H. unfold accepted. cbn [existsb success]. destruct s; try reflexivity. contradiction. Qed.
Lemma echo_start : forall ins o o', echo o o' -> is_start ins o = is_start ins o'.
Proof.
  intros ins o o' [e e' outs Se|e e' s s' Hs Hs' Bu]; [destruct Se; reflexivity|]. unfold is_start.
  destruct e, e'; rewrite ?(refused_accepted _ Hs), ?(refused_accepted _ Hs'), ?andb_false_r; reflexivity.
Qed.
Lemma echo_started : forall ins o o', echo o o' -> is_start ins o' = true -> same_event (fst o) (fst o') /\ snd o = snd o'.
Proof.
  intros ins o o' [e e' outs Se|e e' s s' Hs Hs' Bu] K; [auto|]. exfalso. unfold is_start in K. destruct e'; try discriminate K. rewrite (refused_accepted _ Hs'), andb_false_r in K. discriminate K.
Qed.
Lemma echo_continuation : forall ins o o', echo o o' -> continuation ins o = continuation ins o'.
Proof.
  intros ins o o' [e e' outs Se|e e' s s' Hs Hs' Bu]; [destruct Se; reflexivity|]. unfold continuation.
  destruct e, e'; rewrite ?(refused_accepted _ Hs), ?(refused_accepted _ Hs'), ?andb_false_r; reflexivity.
Qed.
Lemma echo_approval : forall o o', echo o o' -> is_approval o = is_approval o'.
Proof.
  intros o o' [e e' outs Se|e e' s s' Hs Hs' Bu]; [destruct Se; reflexivity|]. unfold is_approval.
  destruct e, e'; rewrite ?(refused_accepted _ Hs), ?(refused_accepted _ Hs'); reflexivity.
Qed.
Lemma echo_shown : forall o o', echo o o' -> shown_by (snd o) = shown_by (snd o').
Proof. intros o o' [e e' outs Se|e e' s s' Hs Hs' Bu]; reflexivity. Qed.
Lemma echo_output : forall o o', echo o o' -> shows_output (snd o) = shows_output (snd o').
Proof. intros o o' [e e' outs Se|e e' s s' Hs Hs' Bu]; reflexivity. Qed.
Lemma echo_given : forall o o' b, echo o o' -> (In (OResp b SW_OK) (snd o) <-> In (OResp b SW_OK) (snd o')).
Proof.
  intros o o' b [e e' outs Se|e e' s s' Hs Hs' Bu]; [reflexivity|]. cbn [snd In]. split; (intros [K|[]]; exfalso; congruence).
Qed.
Lemma echo_describe : forall o o' d, echo o o' -> describe d o = describe d o'.
Proof. intros o o' d H. unfold describe. rewrite (echo_continuation _ _ _ H), (echo_output _ _ H), (echo_approval _ _ H). reflexivity. Qed.
Lemma echo_description : forall b b', Forall2 echo b b' -> description b = description b'.
Proof.
  intros b b'. unfold description. generalize s_empty. intros d H. revert d. induction H as [|o o' b b' R H IH]; intros d; [reflexivity|]. cbn [fold_left]. rewrite (echo_describe _ _ _ R). apply IH.
Qed.
Lemma echo_box : forall b b' x, Forall2 echo b b' -> fold_left sb_step b x = fold_left sb_step b' x.
Proof.
  intros b b' x H. revert x. induction H as [|o o' b b' R H IH]; intros x; [reflexivity|]. cbn [fold_left]. unfold sb_step at 2 4. rewrite (echo_continuation _ _ _ R). apply IH.
Qed.
Definition like_session (x x' : option (obs * list obs)) : Prop :=
  match x, x' with
  | None, None => True
  | Some (s, b), Some (s', b') => same_event (fst s) (fst s') /\ snd s = snd s' /\ Forall2 echo b b'
  | _, _ => False
  end.
Lemma like_sessions : forall ins tr tr' x x', Forall2 echo tr tr' -> like_session x x' ->
  let g := fold_left (fun s o => if is_start ins o then Some (o, []) else match s with Some (b, l) => Some (b, l ++ [o]) | None => None end) in
  like_session (g tr x) (g tr' x').
Proof.
  cbn zeta. intros ins tr tr' x x' H. revert x x'. induction H as [|o o' tr tr' R H IH]; intros x x' Hx; [exact Hx|]. cbn [fold_left]. apply IH. rewrite (echo_start ins _ _ R). destruct (is_start ins o') eqn:S.
  - destruct (echo_started _ _ _ R S). cbn [like_session]. auto.
  - destruct x as [[s b]|], x' as [[s' b']|]; cbn [like_session] in *; try exact Hx. destruct Hx as (H1 & H2 & H3). split; [exact H1|]. split; [exact H2|]. apply Forall2_app; [exact H3|constructor; [exact R|constructor]].
Qed.
Lemma echo_session : forall ins tr tr' s' b', Forall2 echo tr tr' -> session_of ins tr' = Some (s', b') ->
  exists s b, session_of ins tr = Some (s, b) /\ same_event (fst s) (fst s') /\ snd s = snd s' /\ Forall2 echo b b'.
Proof.
  intros ins tr tr' s' b' H K. pose proof (like_sessions ins tr tr' None None H I) as G. cbn zeta in G. unfold session_of in *. rewrite K in G.
  destruct (fold_left _ tr None) as [[s b]|]; [|contradiction]. exists s, b. destruct G as (G1 & G2 & G3). auto.
Qed.
Lemma echo_same_user : forall e e', same_event e e' -> by_user e = by_user e'. Proof. intros e e' []; reflexivity. Qed.
Definition like_question (x x' : option question) : Prop :=
  match x, x' with
  | None, None => True
  | Some (q, k, f, p), Some (q', k', f', p') => same_event q q' /\ k = k' /\ f = f' /\ p = p'
  | _, _ => False
  end.
Lemma like_questions : forall tr tr' x x', Forall2 echo tr tr' -> like_question x x' -> like_question (fold_left question_after tr x) (fold_left question_after tr' x').
Proof.
  intros tr tr' x x' H. revert x x'. induction H as [|o o' tr tr' R H IH]; intros x x' Hx; [exact Hx|]. cbn [fold_left]. apply IH. unfold question_after. destruct R as [e e' outs Se|e e' s s' Hs Hs' Bu]; cbn [fst snd].
  - destruct (shown_by outs) as [[[k0 f0] p0]|]; [cbn [like_question]; auto|]. rewrite (echo_same_user _ _ Se). destruct (by_user e' && responds outs); [exact I|exact Hx].
  - cbn [shown_by]. rewrite Bu. change (responds [OResp [] s]) with true. change (responds [OResp [] s']) with true. destruct (by_user e'); cbn [andb]; [exact I|exact Hx].
Qed.
Lemma echo_screen : forall tr tr' q' k f pages, Forall2 echo tr tr' -> on_screen tr' = Some (q', k, f, pages) -> exists q, on_screen tr = Some (q, k, f, pages) /\ same_event q q'.
Proof.
  intros tr tr' q' k f pages H K. pose proof (like_questions tr tr' None None H I) as G. unfold on_screen in *. rewrite K in G.
  destruct (fold_left question_after tr None) as [[[[q0 k0] f0] p0]|]; [|contradiction]. destruct G as (G & -> & -> & ->). eauto.
Qed.
Lemma echo_forgery : forall tr tr', Forall2 echo tr tr' -> no_forgery tr -> no_forgery tr'.
Proof.
  intros tr tr' H Nf pre c post data -> Hc. apply Forall2_app_inv_r in H as (p0 & x & H1 & H2 & ->). inversion H2 as [|c0 ? post0 ? Rc Hp]; subst.
  destruct (Nf p0 c0 post0 data eq_refl) as (o & Hin & Ho); [rewrite (echo_continuation _ _ _ Rc); exact Hc|]. apply in_split in Hin as (a & b & ->).
  apply Forall2_app_inv_l in H1 as (a' & b' & _ & H1 & ->). inversion H1 as [|? o' ? ? Ro]; subst. exists o'. split; [apply in_or_app; right; left; reflexivity|]. apply (echo_given _ _ _ Ro). exact Ho.
Qed.
Lemma echo_attested : forall E key tr tr' b, Forall2 echo tr tr' -> attested_box E key tr' b -> attested_box E key tr b.
Proof.
  intros E key tr tr' b H (pre & o & post & start & body & i & -> & Ses & -> & Cmp & Hi & Ho). apply Forall2_app_inv_r in H as (p0 & x & H1 & H2 & ->). inversion H2 as [|o0 ? post0 ? Ro Hp]; subst.
  destruct (echo_session _ _ _ _ _ H1 Ses) as (s & b0 & Ses0 & Se & _ & Hb).
  assert (Eb : streamed_box s b0 = streamed_box start body). { unfold streamed_box. replace (start_data s) with (start_data start) by (unfold start_data; destruct Se; reflexivity). apply echo_box. exact Hb. }
  exists p0, o0, post0, s, b0, i. split; [reflexivity|]. split; [exact Ses0|]. split; [symmetry; exact Eb|]. split; [exact Cmp|]. split; [exact Hi|].
  destruct Ro as [e e' outs Sv|e e' s0 s' Hs Hs' Bu]; [exact Ho|]. cbn [snd] in *. exfalso. congruence.
Qed.
Lemma echo_confirmed : forall b b' k pages, Forall2 echo b b' -> confirmed b' k pages -> confirmed b k pages.
Proof.
  intros b b' k pages H (b1 & c & b2 & a & b3 & f & -> & Sh & Len & Fa & Ap). apply Forall2_app_inv_r in H as (x1 & y & H1 & H2 & ->). inversion H2 as [|c0 ? y0 ? Rc Hy]; subst.
  apply Forall2_app_inv_r in Hy as (x2 & z & H3 & H4 & ->). inversion H4 as [|a0 ? x3 ? Ra Hz]; subst. exists x1, c0, x2, a0, x3, f. split; [reflexivity|]. split; [rewrite (echo_shown _ _ Rc); exact Sh|].
  split; [|split; [|rewrite (echo_approval _ _ Ra); exact Ap]].
  - rewrite (echo_description (x1 ++ [c0]) (b1 ++ [c])); [exact Len|]. apply Forall2_app; [exact H1|constructor; [exact Rc|constructor]].
  - clear - H3 Fa. induction H3 as [|o o' x2 b2 R H IH]; [constructor|]. pose proof (Forall_inv Fa) as [K1 K2]. constructor; [|apply IH; exact (Forall_inv_tail Fa)]. rewrite (echo_shown _ _ R), (echo_approval _ _ R). auto.
Qed.
Lemma echo_cost : forall E tr tr' network b b' t bs amount fee roles, Forall2 echo tr tr' -> Forall2 echo b b' -> cost E tr' network b' t bs amount fee roles -> cost E tr network b t bs amount fee roles.
Proof.
  intros E tr tr' network b b' t bs amount fee roles H Hb [C1 C2 C3 C4 C5 C6]. constructor; [|exact C2|exact C3|exact C4|exact C5|].
  - destruct C1 as (q & f & p1 & p2 & p3 & rest & Os & K). destruct (echo_screen _ _ _ _ _ _ H Os) as (q0 & Os0 & _). exists q0, f, p1, p2, p3, rest. split; [exact Os0|exact K].
  - intros k x r Hx Hr. specialize (C6 k x r Hx Hr). unfold plays in *. destruct r as [p| |]; [exact C6| |].
    + destruct C6 as [K1 [K2|(pages & K2 & K3)]]; (split; [exact K1|]); [left; exact K2|right]. exists pages. split; [eapply echo_confirmed; eassumption|exact K3].
    + destruct C6 as (pages & K2 & K3). exists pages. split; [eapply echo_confirmed; eassumption|exact K3].
Qed.

(** ** The cost *)
Lemma echo_last : forall E key tr F o st sig, env_ok E -> fhistory E key (tr ++ [(F, o)]) st -> signature o = Some sig ->
  exists tr' o', Forall2 echo (map snd tr) tr' /\ history E key (tr' ++ [o']) st /\ signature o' = Some sig.
Proof.
  intros E key tr F o st sig HE H Hg. destruct (echoes _ _ _ _ HE H) as (t & Hsh & Hh). rewrite map_app in Hsh. cbn [map snd] in Hsh. apply Forall2_snoc_l in Hsh as (m & o' & -> & Hm & Ho).
  exists m, o'. split; [exact Hm|]. split; [exact Hh|]. destruct Ho as [e e' outs Se|e e' s s' Hs Hs' Bu]; [exact Hg|]. exfalso. unfold signature in Hg. cbn in Hg. destruct s; try discriminate Hg.
Qed.
Theorem cost_despite : forall E key tr F o st sig G, env_ok E -> fhistory E key (tr ++ [(F, o)]) st -> signature o = Some sig -> no_forgery (map snd tr) -> readable_grammar G ->
  exists start body e msg, session_of INS_SIGN (map snd tr) = Some (start, body) /\ same_event (fst start) e /\ signed_message E (e, snd start) msg sig /\
    (Forall (fun x => output_complete x = true) (sx_outputs (description body)) -> readable G (node_tx E (description body)) ->
     forall t bs, readable G t -> n_bytes t = msg -> spends E t bs -> collision_free E key (map snd tr) bs ->
     exists amount fee roles, cost E (map snd tr) (start_network (start_data start)) body t bs amount fee roles).
Proof.
  intros E key tr F o st sig G HE H Hg Nf Rg. destruct (echo_last _ _ _ _ _ _ _ HE H Hg) as (tr' & o' & Hm & Hh & Hg').
  destruct (cost_holds _ _ _ _ _ _ G HE Hh Hg' (echo_forgery _ _ Hm Nf) Rg) as (start' & body' & msg & Ses & Sm & K).
  destruct (echo_session _ _ _ _ _ Hm Ses) as (start & body & Ses0 & Se & Es & Hb). exists start, body, (fst start'), msg. split; [exact Ses0|]. split; [exact Se|].
  split; [rewrite Es; destruct start'; exact Sm|]. rewrite (echo_description _ _ Hb). replace (start_data start) with (start_data start') by (unfold start_data; destruct Se; reflexivity).
  intros Cp Rd t bs Rt Nb Sp Cf. destruct (K Cp Rd t bs Rt Nb Sp) as (amount & fee & roles & C); [intros a b Ha Hin; apply Cf; [eapply echo_attested; eassumption|exact Hin]|].
  exists amount, fee, roles. eapply echo_cost; eassumption.
Qed.
Theorem tokens_despite : forall E key tr F o st sig G, env_ok E -> fhistory E key (tr ++ [(F, o)]) st -> signature o = Some sig -> no_forgery (map snd tr) -> readable_grammar G ->
  attested_readable E key (map snd tr) G ->
  exists start body e msg, session_of INS_SIGN (map snd tr) = Some (start, body) /\ same_event (fst start) e /\ signed_message E (e, snd start) msg sig /\
    (Forall (fun x => output_complete x = true) (sx_outputs (description body)) -> readable G (node_tx E (description body)) ->
     forall t bs, readable G t -> n_bytes t = msg -> spends E t bs -> collision_free E key (map snd tr) bs -> Forall (readable_on_ledger G) bs ->
     tokens_told E (map snd tr) t bs).
Proof.
  intros E key tr F o st sig G HE H Hg Nf Rg Ar. destruct (echo_last _ _ _ _ _ _ _ HE H Hg) as (tr' & o' & Hm & Hh & Hg').
  assert (Ar' : attested_readable E key tr' G).
  { intros a Ha. destruct (Ar a (echo_attested _ _ _ _ _ Hm Ha)) as [K1 K2]. split; [exact K1|]. intros a' Ha'. apply K2. eapply echo_attested; eassumption. }
  destruct (tokens_hold _ _ _ _ _ _ G HE Hh Hg' (echo_forgery _ _ Hm Nf) Rg Ar') as (start' & body' & msg & Ses & Sm & K).
  destruct (echo_session _ _ _ _ _ Hm Ses) as (start & body & Ses0 & Se & Es & Hb). exists start, body, (fst start'), msg. split; [exact Ses0|]. split; [exact Se|].
  split; [rewrite Es; destruct start'; exact Sm|]. rewrite (echo_description _ _ Hb).
  intros Cp Rd t bs Rt Nb Sp Cf Rl. destruct (K Cp Rd t bs Rt Nb Sp) as (q & f & p1 & p2 & p3 & rest & ids & Os & T); [intros a b Ha Hin; apply Cf; [eapply echo_attested; eassumption|exact Hin]|exact Rl|].
  destruct (echo_screen _ _ _ _ _ _ Hm Os) as (q0 & Os0 & _). exists q0, f, p1, p2, p3, rest, ids. split; [exact Os0|exact T].
Qed.
