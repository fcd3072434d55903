(** Small facts for PropDispatch: constant answers, table cells, page counter, and the
    witness of C53. *)
From Coq Require Import String.
From Verif Require Import Lib Env UiFlow P2pkOp App SpecTrace SpecTx SpecApdu SpecAmounts SpecScreen SpecDispatch Toy TraceUb DispatchProofs.

Lemma version_query : forall E st data r, step E st (Apdu CLA INS_VERSION 0 0 data r) = (st, [OResp [0; 0; 5; 0] SW_OK]).
Proof. reflexivity. Qed.
Lemma name_query : forall E st data r, step E st (Apdu CLA INS_NAME 0 0 data r) = (st, [OResp [0x45; 0x72; 0x67; 0x6f] SW_OK]).
Proof. reflexivity. Qed.
Lemma screen_refuses : forall E key tr st q ins p1 p2 data r, env_ok E -> history E key tr st ->
  on_screen tr = Some q -> interactive ins = true -> params_ok ins p1 p2 = true ->
  step E st (Apdu CLA ins p1 p2 data r) = (st, [OResp [] SW_BUSY]).
Proof. intros. apply busy_refuses; try assumption. eapply screen_busy; eauto. Qed.

Lemma cells_add : forall s f, (length f <= 8)%nat -> (length (snd (ui_add_screen s f)) <= 8)%nat.
Proof.
  intros s f H. unfold ui_add_screen, MAX_NUMBER_OF_SCREENS, blen. destruct (8 <=? N.of_nat (length f)) eqn:K; cbn [snd]; [exact H|].
  apply N.leb_gt in K. rewrite app_length. cbn [length]. lia.
Qed.
Lemma table_cells : forall f n, (length f <= 8)%nat ->
  (forall s, (length (snd (ui_add_screen s f)) <= 8)%nat) /\
  (forall g, ui_approve_reject_screens f = Some g -> (length g <= 8)%nat) /\
  (forall g d, ui_add_dynamic_flow_screens f n = Some (g, d) -> (length g <= 8)%nat) /\
  (forall g, ui_display_screens f = Some g -> (length g <= 8)%nat).
Proof.
  intros f n H. split; [intros; apply cells_add; exact H|].
  unfold ui_approve_reject_screens, ui_display_screens, ui_add_dynamic_flow_screens, MAX_NUMBER_OF_SCREENS, blen.
  split; [|split].
  - intros g K. destruct (8 <? _) eqn:C; [discriminate|]. apply N.ltb_ge in C. injection K as <-. rewrite app_length. cbn [length]. lia.
  - intros g d K. destruct (8 <? _) eqn:C; [discriminate|]. destruct (_ || _); [discriminate|].
    assert (G : g = add SC_LOWER (add SC_PAGE (add SC_UPPER f))) by congruence. rewrite G. unfold add. do 3 apply cells_add. exact H.
  - intros g K. destruct (8 <? _) eqn:C; [discriminate|]. apply N.ltb_ge in C. injection K as <-. rewrite app_length. cbn [length]. lia.
Qed.
Lemma menus_fit : exists m a, menu_flow = Some m /\ about_flow = Some a /\ (length m <= 8)%nat /\ (length a <= 8)%nat.
Proof. eexists _, _. split; [reflexivity|]. split; [reflexivity|]. vm_compute. lia. Qed.

Lemma presses_in_range : forall n evs, 1 <= n <= 254 ->
  let press (s : dyn * list (option N)) (right : bool) :=
    let r := (if right then ui_dynamic_step_right else ui_dynamic_step_left) (fst s) in (fst r, snd s ++ [snd r]) in
  Forall (fun p => match p with Some i => i < n | None => True end) (snd (fold_left press evs (mk_dyn n INDEX_NOT_EXIST, []))).
Proof.
  intros n evs Hn press.
  assert (G : forall evs s, dy_count (fst s) = n -> (dy_current (fst s) = 255 \/ dy_current (fst s) < n) ->
    Forall (fun p => match p with Some i => i < n | None => True end) (snd s) ->
    Forall (fun p => match p with Some i => i < n | None => True end) (snd (fold_left press evs s))).
  { induction evs0 as [|b l IH]; intros [[c k] s] Hc Hk Hs; [exact Hs|]. cbn [fst snd dy_count dy_current] in *. subst c. cbn [fold_left].
    assert (U : u8 (n + two8 - 1) < n).
    { unfold u8, two8. replace (n + 256 - 1) with (n - 1 + 1 * 256) by lia. rewrite N.mod_add by discriminate. rewrite N.mod_small; lia. }
    assert (FS : forall x, match x with Some i => i < n | None => True end -> Forall (fun p => match p with Some i => i < n | None => True end) (s ++ [x])).
    { intros x Hx. apply Forall_app. split; [exact Hs|]. constructor; [exact Hx|constructor]. }
    unfold press at 2. destruct b; cbn [fst snd]; unfold ui_dynamic_step_right, ui_dynamic_step_left, INDEX_NOT_EXIST; cbn [dy_count dy_current].
    - destruct (k =? 255) eqn:A; [|destruct (k + 1 <? n) eqn:B]; cbn [fst snd]; (apply IH; [reflexivity| |apply FS]); cbn [fst dy_current]; auto.
      + right. apply N.ltb_lt. exact B.
      + apply N.ltb_lt. exact B.
    - destruct (k =? 255) eqn:A; [|destruct (k =? 0) eqn:B]; cbn [fst snd]; (apply IH; [reflexivity| |apply FS]); cbn [fst dy_current]; auto.
      + right. lia.
      + lia.
      + apply N.eqb_neq in A. right. lia.
      + apply N.eqb_neq in A. lia. }
  apply G; cbn; auto.
Qed.

Lemma no_command_ub : forall E key tr st cla ins p1 p2 data r outs, env_ok E ->
  history E key (tr ++ [(Apdu cla ins p1 p2 data r, outs)]) st -> ~ In OUb outs.
Proof. intros E key tr st cla ins p1 p2 data r outs Henv H K. destruct (device_ub _ _ _ _ _ _ Henv H K) as [[?|?] _]; discriminate. Qed.
Lemma ub_only_minimum : forall E key tr st e outs, env_ok E -> history E key (tr ++ [(e, outs)]) st ->
  (forall start body id, session_of INS_SIGN tr = Some (start, body) -> In id (token_ids (description body)) ->
     balance (description body) id <> (- 2 ^ 63)%Z) -> ~ In OUb outs.
Proof.
  intros E key tr st e outs Henv H K I. destruct (device_ub _ _ _ _ _ _ Henv H I) as (_ & q & f & pages & start & body & id & _ & S & T & B).
  exact (K _ _ _ S T B).
Qed.
Lemma ub_witness : forall evs, playable evs = true ->
  (match last (trace evs) (BadApdu, []) with (_, [OUb]) => true | _ => false end) = true ->
  exists tr e st, env_ok toy /\ history toy TOY_KEY (tr ++ [(e, [OUb])]) st.
Proof.
  intros evs H L. apply trace_history in H.
  destruct (exists_last (l := trace evs)) as (tr & [e outs] & K). { intro K. rewrite K in L. discriminate. }
  rewrite K in H, L. rewrite last_last in L. exists tr, e, (final evs). split; [exact toy_ok|].
  destruct outs as [|[] [|]]; try discriminate. exact H.
Qed.
