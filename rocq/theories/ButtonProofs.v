(** Proofs about the device operated by its buttons. *)
From Coq Require Import String.
From Verif Require Import Lib Env TxTable UiFlow P2pkOp App SpecTx SpecTrace SpecApdu SpecScreen SpecDispatch Moves SignInput TraceScreen TraceShow TraceUb DispatchProofs
  Buttons SpecButtons.

#[local] Arguments N.eqb : simpl never.
#[local] Arguments N.ltb : simpl never.
#[local] Arguments N.leb : simpl never.
#[local] Arguments N.sub : simpl never.
#[local] Arguments blen : simpl never.
#[local] Arguments num : simpl never.
#[local] Arguments slice : simpl never.

(** ** Each action is at most one event *)

Ltac pairs H := repeat match type of H with context [let '(_, _) := ?x in _] => destruct x as [? ?] eqn:? end.

Lemma arrive_shape : forall E U st page i fw d os, arrive E U st page i fw = (d, os) ->
  (os = [] /\ d = land U st page i fw) \/
  exists e outs, os = [(e, outs)] /\ (e = UiUpper \/ e = UiLower) /\ step E st e = (dv_st d, outs).
Proof.
  intros E U st page i fw d os H. unfold arrive in H.
  destruct (cell st i); try (left; split; congruence); right.
  - destruct (step E st UiUpper) as [st' outs] eqn:S. exists UiUpper, outs. assert (Ho : os = [(UiUpper, outs)]) by congruence.
    split; [exact Ho|]. split; [auto|]. rewrite S. f_equal. destruct outs as [|[] [|]]; injection H as <- _; reflexivity.
  - destruct (step E st UiLower) as [st' outs] eqn:S. exists UiLower, outs. assert (Ho : os = [(UiLower, outs)]) by congruence.
    split; [exact Ho|]. split; [auto|]. rewrite S. f_equal. destruct outs as [|[] [|]]; injection H as <- _; reflexivity.
Qed.
Lemma land_st : forall U st page i fw, dv_st (land U st page i fw) = st. Proof. reflexivity. Qed.
Definition single (E : env) (d d' : device) (os : list obs) : Prop :=
  (os = [] /\ dv_st d' = dv_st d) \/
  exists e outs, os = [(e, outs)] /\ by_user e = true /\ step E (dv_st d) e = (dv_st d', outs).
Lemma arrive_single : forall E U d page i fw d' os, arrive E U (dv_st d) page i fw = (d', os) -> single E d d' os.
Proof.
  intros E U d page i fw d' os H. apply arrive_shape in H as [[-> ->]|(e & outs & -> & He & S)]; [left; auto|].
  right. exists e, outs. split; [reflexivity|]. split; [|exact S]. destruct He as [-> | ->]; reflexivity.
Qed.
Lemma fire_single : forall E d e at_ d' os, by_user e = true -> fire E d e at_ = (d', os) -> single E d d' os.
Proof.
  intros E d e at_ d' os He H. unfold fire in H. destruct (step E (dv_st d) e) as [st' outs] eqn:S. injection H as <- <-.
  right. exists e, outs. auto.
Qed.
Lemma press_single : forall E U d b d' os, press E U d b = (d', os) -> single E d d' os.
Proof.
  intros E U d b d' os H. unfold press in H.
  destruct (dv_at d) as [i part|c i part| |]; [| |injection H as <- <-; left; auto..].
  all: destruct b.
  1, 4: destruct part; [|injection H as <- <-; left; auto]; unfold flow_prev in H; destruct i.
  1, 3: destruct (cell (dv_st d) _); try (injection H as <- <-; left; auto; fail); eapply arrive_single; eassumption.
  1, 2: eapply arrive_single; eassumption.
  1, 3: destruct (Nat.ltb _ _); [injection H as <- <-; left; auto|]; unfold flow_next in H;
    destruct (cell (dv_st d) (S i)); try (injection H as <- <-; left; auto; fail); eapply arrive_single; eassumption.
  all: destruct (_ && _); [injection H as <- <-; left; auto|]; unfold validate in H.
  all: destruct (cell (dv_st d) i); try (injection H as <- <-; left; auto; fail); try (eapply fire_single; [|eassumption]; reflexivity).
  all: destruct (bytes_eqb _ _); [eapply fire_single; [|eassumption]; reflexivity|].
  all: destruct (bytes_eqb _ _); [eapply fire_single; [|eassumption]; reflexivity|]; injection H as <- <-; left; auto.
Qed.
Lemma receive_shape : forall E d e d' os, receive E d e = (d', os) ->
  (dv_at d = P_OFF /\ os = [] /\ d' = d) \/
  exists outs, dv_at d <> P_OFF /\ os = [(e, outs)] /\ step E (dv_st d) e = (dv_st d', outs) /\ dv_page d' = dv_page d /\
    dv_at d' = match shown_by outs with Some _ => P_AT 0 0 | None => kept d (dv_st d') end.
Proof.
  intros E d e d' os H. unfold receive in H.
  assert (K : forall outs, existsb (fun o => match o with OShow _ _ _ => true | _ => false end) outs = match shown_by outs with Some _ => true | None => false end).
  { induction outs as [|o outs IH]; [reflexivity|]. destruct o; cbn [existsb shown_by orb]; auto. }
  destruct (dv_at d) eqn:A; [| | |injection H as <- <-; left; auto];
    right; destruct (step E (dv_st d) e) as [st' outs] eqn:S; injection H as <- <-; exists outs; rewrite K;
    (split; [discriminate|]; split; [reflexivity|]; split; [reflexivity|]; split; [reflexivity|]); cbn [dv_at]; destruct (shown_by outs); reflexivity.
Qed.

Lemma kept_same : forall d, kept d (dv_st d) = dv_at d.
Proof. intros d. unfold kept. destruct (dv_at d); try reflexivity. destruct (screen_dec _ _) as [|K]; [reflexivity|]. destruct (K eq_refl). Qed.

Lemma happened_snoc : forall l a os, happened (l ++ [(a, os)]) = happened l ++ os.
Proof. intros. unfold happened. rewrite map_app, concat_app. cbn. rewrite app_nil_r. reflexivity. Qed.
Lemma happened_app : forall l l', happened (l ++ l') = happened l ++ happened l'.
Proof. intros. unfold happened. rewrite map_app, concat_app. reflexivity. Qed.
Lemma user_event_ok : forall e, by_user e = true -> event_ok e. Proof. intros []; cbn; try discriminate; auto. Qed.

Lemma operated_history : forall E U key l d, operated E U key l d -> history E key (happened l) (dv_st d).
Proof.
  intros E U key l d H. induction H as [|l d a d' os H IH Ha Ho Hs]; [apply history_start|].
  rewrite happened_snoc. destruct a as [e|b]; cbn [operate] in Ho.
  - apply receive_shape in Ho as [(_ & -> & ->)|(outs & _ & -> & S & _)]; [rewrite app_nil_r; exact IH|].
    inversion Hs as [|x y Hx _]; subst. eapply history_step; eauto; [apply Ha|apply Hx].
  - apply press_single in Ho as [[-> Hd]|(e & outs & -> & He & S)]; [rewrite app_nil_r, Hd; exact IH|].
    inversion Hs as [|x y Hx _]; subst. eapply history_step; eauto; [apply user_event_ok; exact He|apply Hx].
Qed.

Lemma operated_last : forall E U key l a os d', operated E U key (l ++ [(a, os)]) d' ->
  exists d, operated E U key l d /\ action_ok a /\ operate E U d a = (d', os) /\ sound os.
Proof.
  intros E U key l a os d' H. inversion H as [K|l0 d a0 d0 os0 H1 H2 H3 H4 K].
  - exfalso. eapply app_cons_not_nil. exact K.
  - apply app_inj_tail in K as [-> K]. injection K as -> ->. exists d. auto.
Qed.
Lemma operated_det : forall E U key l d1 d2, operated E U key l d1 -> operated E U key l d2 -> d2 = d1.
Proof.
  intros E U key l d1 d2 H. revert d2. induction H as [|l d a d' os H IH Ha Ho Hs]; intros d2 H2.
  - inversion H2 as [K|? ? ? ? ? ? ? ? ? K]; [reflexivity|]. exfalso. eapply app_cons_not_nil. symmetry. exact K.
  - apply operated_last in H2 as (d0 & H2 & _ & Ho2 & _). apply IH in H2. subst d0. congruence.
Qed.
Lemma operated_prefix : forall E U key l l' d, operated E U key (l ++ l') d -> exists d0, operated E U key l d0.
Proof.
  intros E U key l l'. induction l' as [|[a os] l' IH] using rev_ind; intros d H; [rewrite app_nil_r in H; eauto|].
  rewrite app_assoc in H. apply operated_last in H as (d0 & H & _). eauto.
Qed.

(** ** The cards of a flow *)

(** The flow of a question is either static, or the seven cells around computed pages. *)
Definition static_form (k : ui_kind) (f : flow) (pages : list page) : Prop :=
  has_pages k = false /\ pages = [] /\ exists body, f = body ++ [SC_APPROVE; SC_REJECT; SC_LOOP; SC_END] /\ Forall static_screen body.
Definition paged_form (E : env) (k : ui_kind) (f : flow) (pages : list page) (st : state) : Prop :=
  has_pages k = true /\ (exists title, f = paged_flow title) /\ pages = pages_of E k (st_ctx st) (dy_count (st_dyn st)) /\ dyn_ok (st_dyn st).
Lemma question_form : forall E key tr st e k f pages, env_ok E -> history E key tr st -> on_screen tr = Some (e, k, f, pages) ->
  static_form k f pages \/ paged_form E k f pages st.
Proof.
  intros E key tr st e k f pages Henv H Ho. pose proof (flow_form _ _ _ _ _ _ _ _ Henv H Ho) as (body & -> & L & Hk).
  assert (P : has_pages k = true -> (exists title, body = [SC_INFO title; SC_UPPER; SC_PAGE; SC_LOWER]) ->
            paged_form E k (body ++ [SC_APPROVE; SC_REJECT; SC_LOOP; SC_END]) pages st).
  { intros Hp [title ->]. split; [exact Hp|]. split; [exists title; reflexivity|].
    destruct (screen_state _ _ _ _ _ _ _ _ Henv H Ho) as (_ & U & _ & _ & A).
    assert (Hk' : k = U_STX_OUTPUT \/ k = U_STX_TX) by (destruct k; try discriminate; auto).
    destruct (paged_session _ _ _ _ _ _ _ _ Henv H Ho Hk') as (g & start & bd & s & X1 & X2 & _).
    rewrite X1, X2 in A. destruct A as (sub & data & r & _ & _ & _ & Ep & D & _). rewrite U, <- X1 in Ep. auto. }
  destruct k; try (left; destruct Hk as [Hs ->]; split; [reflexivity|]; split; [reflexivity|]; exists body; auto; fail);
    right; destruct Hk as (title & Hb & _); apply P; eauto.
Qed.
(** Which flows have a path among their screens. *)
Lemma path_form : forall E key tr st e k f pages t b acts, env_ok E -> history E key tr st -> on_screen tr = Some (e, k, f, pages) ->
  In (SC_PATH t b acts) f -> (k = U_STX_APPROVE /\ acts = true) \/ ((k = U_EPK \/ k = U_DA) /\ acts = false).
Proof.
  intros E key tr st e k f pages t b acts Henv H Ho Hin. destruct (screen_state _ _ _ _ _ _ _ _ Henv H Ho) as (B & U & F & _ & A).
  pose proof (history_shape _ _ _ _ H) as Sh. unfold shape in Sh. destruct (st_ctx st) as [|x|x|x|g].
  - destruct A.
  - destruct Sh as (_ & S & _). right. split; [left; congruence|]. destruct A as (p1 & data & r & s & _ & _ & _ & _ & _ & _ & Es & Ef & _).
    unfold ui_bip32_path_screen in Es. destruct (Bip32.bip32_path_format _ _); [|discriminate]. injection Es as <-.
    rewrite F in Ef. rewrite Ef in Hin. unfold epk_flow in Hin. clear - Hin. revert Hin. destruct (token_of e =? 0); cbn; intros Hin;
      repeat (destruct Hin as [Hin|Hin]; [congruence || discriminate|]); destruct Hin.
  - destruct Sh as (_ & S & _). right. split; [right; congruence|]. destruct A as (p1 & p2 & data & r & pk & ch & ff & _ & _ & _ & _ & _ & _ & _ & _ & _ & Es & Ef & _).
    rewrite F in Ef. rewrite Ef in Hin. clear - Es Hin. apply in_app_iff in Hin as [Hin|Hin]; [|destruct Hin as [Hin|[Hin|[]]]; discriminate].
    unfold da_screens, ui_bip32_path_screen in Es. destruct (Bip32.bip32_path_format _ _) as [px|]; [|discriminate].
    apply bind_ok in Es as (f1 & E1 & E2).
    assert (A : forall s g, In (SC_PATH t b acts) (add s g) -> In (SC_PATH t b acts) g \/ s = SC_PATH t b acts).
    { intros s g K. unfold add, ui_add_screen in K. destruct (_ <=? _); [left; exact K|]. cbn [snd] in K. apply in_app_iff in K as [K|[K|[]]]; auto. }
    assert (K : In (SC_PATH t b acts) (if token_of e =? 0 then f1 else add (ui_application_id_screen (token_of e)) f1)).
    { unfold ui_approve_reject_screens in E2. destruct (_ <? _); [discriminate|]. injection E2 as <-. apply in_app_iff in Hin as [Hin|[Hin|[Hin|[]]]]; [exact Hin|discriminate..]. }
    assert (K1 : In (SC_PATH t b acts) f1). { destruct (_ =? 0); [exact K|]. apply A in K as [K|K]; [exact K|discriminate]. }
    assert (K2 : In (SC_PATH t b acts) (add (SC_PATH (str "Path") px false) (add (SC_INFO (str (if p1 =? 1 then "Confirm Send Address" else "Confirm Address"))) []))).
    { destruct (p1 =? 1); [injection E1 as <-; exact K1|]. destruct (Base58.base58_encode _ _); [|discriminate]. destruct (Nat.leb _ _); [discriminate|].
      injection E1 as <-. apply A in K1 as [K1|K1]; [exact K1|discriminate]. }
    apply A in K2 as [K2|K2]; [apply A in K2 as [[]|K2]; discriminate|]. congruence.
  - destruct A as (p2 & data & r & _ & _ & _ & Ef & _). exfalso. rewrite F in Ef. rewrite Ef in Hin. unfold attest_flow in Hin. clear - Hin. revert Hin.
    destruct (token_of e =? 0); cbn; intros Hin; repeat (destruct Hin as [Hin|Hin]; [discriminate|]); destruct Hin.
  - destruct Sh as (_ & S). destruct (sg_state g).
    + destruct S as (_ & S & _). left. split; [congruence|]. destruct A as (p2 & data & r & x & known & _ & _ & _ & _ & Ef & _).
      rewrite F in Ef. rewrite Ef in Hin. unfold sign_flow in Hin. clear - Hin. revert Hin. destruct known; cbn; intros Hin;
        (destruct Hin as [Hin|Hin]; [congruence|]); repeat (destruct Hin as [Hin|Hin]; [discriminate|]); destruct Hin.
    + destruct A as (sub & data & r & _ & _ & _ & _ & _ & Ef & _). exfalso. rewrite F in Ef. rewrite Ef in Hin. unfold paged_flow in Hin. clear - Hin.
      cbn in Hin. repeat (destruct Hin as [Hin|Hin]; [discriminate|]); destruct Hin.
Qed.

(** ** Where the engine stands *)

Definition at_card (st : state) (i n : nat) : Prop :=
  let c := N.to_nat (dy_count (st_dyn st)) in let cur := dy_current (st_dyn st) in
  if has_pages (st_ui st) then
    (i = 0%nat /\ n = 0%nat /\ cur = 255) \/ (i = 2%nat /\ n = S (N.to_nat cur) /\ cur < dy_count (st_dyn st)) \/
    (i = 4%nat /\ n = S c /\ cur = 255) \/ (i = 5%nat /\ n = S (S c) /\ cur = 255)
  else n = i.
Definition standing (U : ux) (f : flow) (pages : list page) (d : device) (i n p : nat) : Prop :=
  at_card (dv_st d) i n /\
  exists c, nth_error (cards f pages) n = Some (Some c) /\ card_of (dv_page d) (cell (dv_st d) i) = Some c /\ (p <= extra U c)%nat.

Lemma static_cards : forall body pages, Forall static_screen body ->
  cards (body ++ [SC_APPROVE; SC_REJECT; SC_LOOP; SC_END]) pages = map (card_of ([], [])) (body ++ [SC_APPROVE; SC_REJECT]).
Proof.
  intros body pages H. induction H as [|s body Hs H IH]; [reflexivity|]. unfold cards in *. cbn [flat_map List.app map]. rewrite IH.
  destruct s; try destruct Hs; reflexivity.
Qed.
Lemma static_card : forall s pg, static_screen s \/ s = SC_APPROVE \/ s = SC_REJECT -> exists c, card_of pg s = Some c /\ card_of ([], []) s = Some c.
Proof. intros s pg [H|[-> | ->]]; [destruct s; try destruct H|..]; cbn; eauto. Qed.

(** Arriving at an ordinary cell of a static flow. *)
Lemma static_land : forall U body st pages pg i fw, st_flow st = body ++ [SC_APPROVE; SC_REJECT; SC_LOOP; SC_END] -> Forall static_screen body -> has_pages (st_ui st) = false ->
  (i < length body + 2)%nat -> forall E, exists p,
  arrive E U st pg i fw = (mk_device st pg (P_AT i p), []) /\ standing U (st_flow st) pages (mk_device st pg (P_AT i p)) i i p /\ (fw = true -> p = O).
Proof.
  intros U body st pages pg i fw F Hs Hp Hi E.
  assert (Hc : static_screen (cell st i) \/ cell st i = SC_APPROVE \/ cell st i = SC_REJECT).
  { unfold cell. rewrite F. destruct (Nat.lt_ge_cases i (length body)) as [L|L].
    - left. rewrite app_nth1 by assumption. rewrite Forall_forall in Hs. apply Hs. apply nth_In. exact L.
    - right. rewrite app_nth2 by assumption. assert (K : (i - length body = 0 \/ i - length body = 1)%nat) by lia. destruct K as [-> | ->]; cbn; auto. }
  assert (Ha : arrive E U st pg i fw = (land U st pg i fw, [])).
  { unfold arrive. destruct (cell st i); try reflexivity; destruct Hc as [[]|[K|K]]; discriminate. }
  destruct (static_card (cell st i) pg Hc) as (c & C1 & C2).
  exists (if fw then O else extra U c). split; [rewrite Ha; unfold land; rewrite C1; reflexivity|].
  split; [|intros ->; reflexivity]. split; [unfold at_card; cbn [dv_st]; rewrite Hp; reflexivity|].
  exists c. split; [|split; [exact C1|destruct fw; lia]]. rewrite F, static_cards by assumption.
  erewrite map_nth_error; [rewrite <- C2; reflexivity|]. unfold cell. rewrite F.
  replace (body ++ [SC_APPROVE; SC_REJECT; SC_LOOP; SC_END]) with ((body ++ [SC_APPROVE; SC_REJECT]) ++ [SC_LOOP; SC_END]) by (rewrite <- app_assoc; reflexivity).
  rewrite app_nth1 by (rewrite app_length; cbn [length]; lia). apply nth_error_nth'. rewrite app_length. cbn [length]. lia.
Qed.

(** What an unanswered left or right press does. *)
Definition steps_to (U : ux) (f : flow) (pages : list page) (b : button) (d d' : device) (n p : nat) : Prop :=
  exists i' n' p', dv_at d' = P_AT i' p' /\ standing U f pages d' i' n' p' /\ turn U (cards f pages) b (n, p) (n', p').

Lemma last_not : forall U cs n p c, nth_error cs n = Some (Some c) -> (p < extra U c)%nat -> ~ last_part U cs n p.
Proof. intros U cs n p c H L (c' & H' & ->). rewrite H in H'. injection H' as <-. lia. Qed.
Lemma card_index : forall st i n U f pages d p, standing U f pages d i n p -> has_pages (st_ui (dv_st d)) = false -> st = dv_st d -> n = i.
Proof. intros st i n U f pages d p [H _] Hp ->. unfold at_card in H. rewrite Hp in H. exact H. Qed.

Lemma static_walk : forall E U d k f pages i n p b d' os, static_form k f pages -> st_ui (dv_st d) = k -> st_flow (dv_st d) = f ->
  dv_at d = P_AT i p -> standing U f pages d i n p -> b <> BOTH -> press E U d b = (d', os) -> os = [] /\ steps_to U f pages b d d' n p.
Proof.
  intros E U d k f pages i n p b d' os (Hp & _ & body & Hf & Hs) Hk F A St Hb H.
  rewrite <- Hk in Hp. pose proof (card_index _ _ _ _ _ _ _ _ St Hp eq_refl) as ->.
  destruct St as [Sc (c & C1 & C2 & Lp)]. unfold press in H. rewrite A, C2 in H.
  assert (Ln : length (cards f pages) = (length body + 2)%nat). { rewrite Hf, static_cards by assumption. rewrite map_length, app_length. reflexivity. }
  assert (Li : (i < length body + 2)%nat). { rewrite <- Ln. apply nth_error_Some. congruence. }
  assert (Lf : length f = (length body + 4)%nat). { rewrite Hf, app_length. reflexivity. }
  assert (Cn : forall j, cell (dv_st d) (length body + j) = nth j [SC_APPROVE; SC_REJECT; SC_LOOP; SC_END] SC_END).
  { intros j. unfold cell. rewrite F, Hf, app_nth2 by lia. f_equal. lia. }
  assert (Same : forall q, standing U f pages (mk_device (dv_st d) (dv_page d) (P_AT i q)) i i q <-> (q <= extra U c)%nat).
  { intros q. split.
    - intros [_ (c' & _ & C' & L')]. cbn [dv_st dv_page] in C'. rewrite C2 in C'. injection C' as <-. exact L'.
    - intros L'. split; [exact Sc|]. exists c. auto. }
  destruct b; [| |congruence].
  - destruct p as [|p].
    + unfold flow_prev in H. destruct i as [|i].
      * rewrite F, Lf in H. replace (length body + 4 - 2)%nat with (length body + 2)%nat in H by lia. rewrite Cn in H. cbn [nth] in H.
        replace (length body + 4 - 3)%nat with (length body + 1)%nat in H by lia.
        destruct (static_land U body (dv_st d) pages (dv_page d) (length body + 1) true) with (E := E) as (q & Ha & Hst & Hq); try assumption; try congruence; try lia.
        rewrite Ha in H. injection H as <- <-. split; [reflexivity|]. exists (length body + 1)%nat, (length body + 1)%nat, q.
        split; [reflexivity|]. split; [rewrite F in Hst; exact Hst|]. apply turn_back_around. lia.
      * destruct (static_land U body (dv_st d) pages (dv_page d) i false) with (E := E) as (q & Ha & Hst & Hq); try assumption; try congruence; try lia.
        rewrite Ha in H. injection H as <- <-. split; [reflexivity|]. exists i, i, q. split; [reflexivity|]. split; [rewrite F in Hst; exact Hst|]. apply turn_left.
    + injection H as <- <-. split; [reflexivity|]. exists i, i, p. split; [reflexivity|]. split; [apply Same; lia|]. apply turn_back_part.
  - destruct (Nat.ltb_spec p (extra U c)) as [L|L].
    + injection H as <- <-. split; [reflexivity|]. exists i, i, (S p). split; [reflexivity|]. split; [apply Same; lia|].
      apply turn_part. eapply last_not; eassumption.
    + assert (LP : last_part U (cards f pages) i p) by (exists c; split; [exact C1|lia]).
      unfold flow_next in H. destruct (Nat.eq_dec i (length body + 1)) as [Ei|Ei].
      * subst i. replace (S (length body + 1)) with (length body + 2)%nat in H by lia. rewrite Cn in H. cbn [nth] in H.
        destruct (static_land U body (dv_st d) pages (dv_page d) 0 (Nat.leb (length body + 1) 0)) with (E := E) as (q & Ha & Hst & Hq); try assumption; try congruence; try lia.
        rewrite Ha in H. injection H as <- <-. split; [reflexivity|]. exists 0%nat, 0%nat, q. split; [reflexivity|]. split; [rewrite F in Hst; exact Hst|].
        apply turn_around; [exact LP|lia].
      * assert (Nx : match cell (dv_st d) (S i) with SC_LOOP | SC_END => False | _ => True end).
        { unfold cell. rewrite F, Hf. destruct (Nat.lt_ge_cases (S i) (length body)) as [L1|L1].
          - rewrite app_nth1 by assumption. rewrite Forall_forall in Hs. pose proof (Hs _ (nth_In body SC_END L1)) as K. destruct (nth (S i) body SC_END); try exact I; destruct K.
          - rewrite app_nth2 by assumption. assert (K : (S i - length body = 0 \/ S i - length body = 1)%nat) by lia. destruct K as [-> | ->]; exact I. }
        assert (H' : arrive E U (dv_st d) (dv_page d) (S i) true = (d', os)) by (destruct (cell (dv_st d) (S i)); try exact H; destruct Nx). clear H.
        destruct (static_land U body (dv_st d) pages (dv_page d) (S i) true) with (E := E) as (q & Ha & Hst & Hq); try assumption; try congruence; try lia.
        rewrite Ha in H'. injection H' as <- <-. rewrite (Hq eq_refl) in Hst |- *. split; [reflexivity|]. exists (S i), (S i), 0%nat. split; [reflexivity|].
        split; [rewrite F in Hst; exact Hst|]. apply turn_right; [exact LP|lia].
Qed.

(** ** Computed pages *)

Lemma paged_cards : forall title pages, cards (paged_flow title) pages = Some (C_INFO title) :: page_cards pages ++ [Some C_APPROVE; Some C_REJECT].
Proof. intros. unfold cards, paged_flow. cbn [flat_map List.app]. reflexivity. Qed.
Lemma page_cards_length : forall pages, length (page_cards pages) = length pages. Proof. intros. apply map_length. Qed.
Lemma pages_of_length : forall E k c n, length (pages_of E k c n) = N.to_nat n.
Proof. intros. unfold pages_of. rewrite map_length, seq_length. reflexivity. Qed.
Lemma pages_of_nth : forall E k c n i, i < n -> nth_error (pages_of E k c n) (N.to_nat i) = Some (page_of E k c i).
Proof.
  intros E k c n i H. unfold pages_of. rewrite <- (N2Nat.id i) at 2. apply (map_nth_error (fun i => page_of E k c (N.of_nat i))).
  rewrite (nth_error_nth' _ 0%nat) by (rewrite seq_length; lia). rewrite seq_nth by lia. reflexivity.
Qed.
Lemma page_card : forall pages i t b, nth_error pages i = Some (Ok (t, b)) -> nth_error (page_cards pages) i = Some (Some (C_TEXT t b)).
Proof. intros pages i t b H. unfold page_cards. erewrite map_nth_error by eassumption. reflexivity. Qed.

(** What a delimiter does. *)
Definition quiet (o : obs) : Prop := shown_by (snd o) = None /\ responds (snd o) = false /\ ~ In ODiverge (snd o) /\ ~ In OUb (snd o).
Definition failing (pages : list page) (os : list obs) : Prop :=
  exists e s, (e = UiUpper \/ e = UiLower) /\ In (Fail s) pages /\
    ((s <> SW_UB /\ os = [(e, [OResp [] s])]) \/ (s = SW_UB /\ os = [(e, [OUb])])).

Section Paged.
  Variables (E : env) (U : ux) (st : state) (title : text) (pages : list page).
  Hypothesis Hp : has_pages (st_ui st) = true.
  Hypothesis Hf : st_flow st = paged_flow title.
  Hypothesis Hpg : pages = pages_of E (st_ui st) (st_ctx st) (dy_count (st_dyn st)).
  Hypothesis Hd : dyn_ok (st_dyn st).
  Let cs := cards (paged_flow title) pages.
  Let cnt := dy_count (st_dyn st).

  Lemma pg_length : length pages = N.to_nat cnt.
  Proof. rewrite Hpg. apply pages_of_length. Qed.
  Lemma cs_length : length cs = (N.to_nat cnt + 3)%nat.
  Proof. unfold cs. rewrite paged_cards. cbn [length]. rewrite app_length, page_cards_length, pg_length. cbn [length]. lia. Qed.
  Lemma cs_page : forall i t b, i < cnt -> page_of E (st_ui st) (st_ctx st) i = Ok (t, b) -> nth_error cs (S (N.to_nat i)) = Some (Some (C_TEXT t b)).
  Proof.
    intros i t b Hi H. unfold cs. rewrite paged_cards. cbn [nth_error]. pose proof pg_length. rewrite nth_error_app1 by (rewrite page_cards_length; lia).
    apply page_card. rewrite Hpg, pages_of_nth by assumption. rewrite H. reflexivity.
  Qed.
  Lemma cs_fail : forall i s, i < cnt -> page_of E (st_ui st) (st_ctx st) i = Fail s -> nth_error cs (S (N.to_nat i)) = Some None.
  Proof.
    intros i s Hi H. unfold cs. rewrite paged_cards. cbn [nth_error]. pose proof pg_length. rewrite nth_error_app1 by (rewrite page_cards_length; lia).
    unfold page_cards. rewrite nth_error_map, Hpg, pages_of_nth by assumption. rewrite H. reflexivity.
  Qed.
  Lemma cs_approve : nth_error cs (S (N.to_nat cnt)) = Some (Some C_APPROVE).
  Proof.
    unfold cs. rewrite paged_cards. cbn [nth_error]. rewrite nth_error_app2 by (rewrite page_cards_length, pg_length; lia).
    rewrite page_cards_length, pg_length. replace (N.to_nat cnt - N.to_nat cnt)%nat with 0%nat by lia. reflexivity.
  Qed.
  Lemma cs_reject : nth_error cs (S (S (N.to_nat cnt))) = Some (Some C_REJECT).
  Proof.
    unfold cs. rewrite paged_cards. change (nth_error (page_cards pages ++ [Some C_APPROVE; Some C_REJECT]) (S (N.to_nat cnt)) = Some (Some C_REJECT)).
    rewrite nth_error_app2 by (rewrite page_cards_length, pg_length; lia).
    rewrite page_cards_length, pg_length. replace (S (N.to_nat cnt) - N.to_nat cnt)%nat with 1%nat by lia. reflexivity.
  Qed.
  Lemma page_in : forall i, i < cnt -> In (page_of E (st_ui st) (st_ctx st) i) pages.
  Proof. intros i Hi. rewrite Hpg. eapply nth_error_In. apply pages_of_nth. exact Hi. Qed.

  (** The four places. *)
  Lemma stand_info : forall pg at_, dy_current (st_dyn st) = 255 -> standing U (paged_flow title) pages (mk_device st pg at_) 0 0 0.
  Proof.
    intros pg at_ Hc. split; [unfold at_card; cbn [dv_st]; rewrite Hp; left; auto|]. exists (C_INFO title). fold cs. split; [unfold cs; rewrite paged_cards; reflexivity|].
    split; [cbn [dv_st dv_page]; unfold cell; rewrite Hf; reflexivity|cbn; lia].
  Qed.
  Lemma stand_approve : forall pg at_, dy_current (st_dyn st) = 255 -> standing U (paged_flow title) pages (mk_device st pg at_) 4 (S (N.to_nat cnt)) 0.
  Proof.
    intros pg at_ Hc. split; [unfold at_card; cbn [dv_st]; rewrite Hp; right; right; left; auto|]. exists C_APPROVE. fold cs. split; [apply cs_approve|].
    split; [cbn [dv_st dv_page]; unfold cell; rewrite Hf; reflexivity|cbn; lia].
  Qed.
  Lemma stand_reject : forall pg at_, dy_current (st_dyn st) = 255 -> standing U (paged_flow title) pages (mk_device st pg at_) 5 (S (S (N.to_nat cnt))) 0.
  Proof.
    intros pg at_ Hc. split; [unfold at_card; cbn [dv_st]; rewrite Hp; right; right; right; auto|]. exists C_REJECT. fold cs. split; [apply cs_reject|].
    split; [cbn [dv_st dv_page]; unfold cell; rewrite Hf; reflexivity|cbn; lia].
  Qed.
  Lemma stand_page : forall t b at_ i, i < cnt -> page_of E (st_ui st) (st_ctx st) i = Ok (t, b) ->
    standing U (paged_flow title) pages (mk_device (set_dyn st (mk_dyn cnt i)) (t, b) at_) 2 (S (N.to_nat i)) 0.
  Proof.
    intros t b at_ i Hi H. split; [unfold at_card; cbn [dv_st set_dyn st_ui st_dyn dy_current dy_count]; rewrite Hp; right; left; auto|].
    exists (C_TEXT t b). fold cs. split; [apply cs_page; assumption|].
    split; [cbn [dv_st dv_page fst snd]; unfold cell; cbn [set_dyn st_flow]; rewrite Hf; reflexivity|lia].
  Qed.

  (** A delimiter is reached and page [i] is to be computed. *)
  Lemma go_page : forall e (x : dyn * option N) i, x = (mk_dyn cnt i, Some i) -> i < cnt -> (e = UiUpper \/ e = UiLower) ->
    (exists t b, page_of E (st_ui st) (st_ctx st) i = Ok (t, b) /\ display_dynamic E st x = (set_dyn st (mk_dyn cnt i), [OPage i t b])) \/
    (exists outs, failing pages [(e, outs)] /\ snd (display_dynamic E st x) = outs /\ outs <> [] /\ (forall i t b, outs <> [OPage i t b]) /\ exists s, page_of E (st_ui st) (st_ctx st) i = Fail s).
  Proof.
    intros e x i -> Hi He. unfold display_dynamic. cbn [fst snd set_dyn st_ui st_ctx]. pose proof (page_in i Hi) as Hin.
    destruct (page_of E (st_ui st) (st_ctx st) i) as [[t b]|s] eqn:P; [left; exists t, b; auto|right].
    destruct s; (eexists; split; [|split; [cbn [snd]; reflexivity|]; split; [discriminate|]; split; [intros; discriminate|eexists; reflexivity]]);
      (exists e; eexists; split; [exact He|]; split; [exact Hin|]); ((left; split; [discriminate|reflexivity]) || (right; split; reflexivity)).
  Qed.
End Paged.

Lemma dyn_left_in : forall d, dy_current d = 255 -> ui_dynamic_step_left d = (mk_dyn (dy_count d) 0, Some 0).
Proof. intros d H. unfold ui_dynamic_step_left. rewrite H. reflexivity. Qed.
Lemma dyn_left_out : forall d, dy_current d = 0 -> ui_dynamic_step_left d = (mk_dyn (dy_count d) 255, None).
Proof. intros d H. unfold ui_dynamic_step_left. rewrite H. reflexivity. Qed.
Lemma dyn_left : forall d, dy_current d <> 255 -> dy_current d <> 0 ->
  ui_dynamic_step_left d = (mk_dyn (dy_count d) (dy_current d - 1), Some (dy_current d - 1)).
Proof. intros d H1 H2. unfold ui_dynamic_step_left, INDEX_NOT_EXIST. apply N.eqb_neq in H1, H2. rewrite H1, H2. reflexivity. Qed.
Lemma dyn_right_in : forall d, dyn_ok d -> dy_current d = 255 -> ui_dynamic_step_right d = (mk_dyn (dy_count d) (dy_count d - 1), Some (dy_count d - 1)).
Proof.
  intros d [L _] H. unfold ui_dynamic_step_right. rewrite H. change (255 =? INDEX_NOT_EXIST) with true. cbv iota zeta.
  assert (X : u8 (dy_count d + two8 - 1) = dy_count d - 1).
  { unfold u8, two8. replace (dy_count d + 256 - 1) with (dy_count d - 1 + 1 * 256) by lia. rewrite N.mod_add by discriminate. apply N.mod_small. lia. }
  rewrite X. reflexivity.
Qed.
Lemma dyn_right : forall d, dyn_ok d -> dy_current d + 1 < dy_count d -> ui_dynamic_step_right d = (mk_dyn (dy_count d) (dy_current d + 1), Some (dy_current d + 1)).
Proof.
  intros d [L _] H. unfold ui_dynamic_step_right, INDEX_NOT_EXIST. assert (K : dy_current d <> 255) by lia. apply N.eqb_neq in K. apply N.ltb_lt in H. rewrite K, H. reflexivity.
Qed.
Lemma dyn_right_out : forall d, dyn_ok d -> dy_current d + 1 = dy_count d -> ui_dynamic_step_right d = (mk_dyn (dy_count d) 255, None).
Proof.
  intros d [L _] H. unfold ui_dynamic_step_right, INDEX_NOT_EXIST. assert (K : dy_current d <> 255) by lia. apply N.eqb_neq in K.
  assert (K2 : dy_current d + 1 <? dy_count d = false) by (apply N.ltb_ge; lia). rewrite K, K2. reflexivity.
Qed.

Section PagedWalk.
  Variables (E : env) (U : ux) (d : device) (title : text) (pages : list page).
  Let st := dv_st d.
  Hypothesis Hp : has_pages (st_ui st) = true.
  Hypothesis Hf : st_flow st = paged_flow title.
  Hypothesis Hpg : pages = pages_of E (st_ui st) (st_ctx st) (dy_count (st_dyn st)).
  Hypothesis Hd : dyn_ok (st_dyn st).
  Let cs := cards (paged_flow title) pages.
  Let cnt := dy_count (st_dyn st).
  Let outcome b n p (r : device * list obs) : Prop :=
    (steps_to U (paged_flow title) pages b d (fst r) n p /\ Forall quiet (snd r)) \/
    failing pages (snd r) /\ exists y, turn U cs b (n, p) y /\ nth_error cs (fst y) = Some None.

  Lemma up_step : step E st UiUpper = display_dynamic E st (ui_dynamic_step_left (st_dyn st)).
  Proof. cbn [step]. rewrite Hp. reflexivity. Qed.
  Lemma low_step : step E st UiLower = display_dynamic E st (ui_dynamic_step_right (st_dyn st)).
  Proof. cbn [step]. rewrite Hp. reflexivity. Qed.
  Lemma up_cell : cell st 1 = SC_UPPER. Proof. unfold cell. rewrite Hf. reflexivity. Qed.
  Lemma low_cell : cell st 3 = SC_LOWER. Proof. unfold cell. rewrite Hf. reflexivity. Qed.
  Lemma quiet_page : forall e i t b, Forall quiet [(e, [OPage i t b])].
  Proof. intros. constructor; [|constructor]. split; [reflexivity|]. split; [reflexivity|]. split; intros [K|[]]; discriminate. Qed.
  Lemma quiet_nil : forall e, Forall quiet [(e, [])].
  Proof. intros. constructor; [|constructor]. split; [reflexivity|]. split; [reflexivity|]. split; intros []. Qed.

  (** The delimiters lead to page [i], or fail. *)
  Lemma up_page : forall fw i, ui_dynamic_step_left (st_dyn st) = (mk_dyn cnt i, Some i) -> i < cnt -> forall b n p,
    turn U cs b (n, p) (S (N.to_nat i), O) -> outcome b n p (arrive E U st (dv_page d) 1 fw).
  Proof.
    intros fw i Hx Hi b n p Ht. unfold arrive. rewrite up_cell, up_step.
    destruct (go_page E st pages Hpg UiUpper _ i Hx Hi (or_introl eq_refl)) as [(t & x & Pg & D)|(outs & Fl & D & N1 & N2 & s & Fs)].
    - rewrite D. left. cbn [fst snd]. split; [|apply quiet_page]. exists 2%nat, (S (N.to_nat i)), 0%nat.
      split; [reflexivity|]. split; [apply (stand_page E U st title pages Hp Hf Hpg); assumption|exact Ht].
    - right. destruct (display_dynamic E st (ui_dynamic_step_left (st_dyn st))) as [st' o]. cbn [snd] in D. subst o. split; [exact Fl|]. exists (S (N.to_nat i), O). split; [exact Ht|]. exact (cs_fail E st title pages Hpg i s Hi Fs).
  Qed.
  Lemma low_page : forall fw i, ui_dynamic_step_right (st_dyn st) = (mk_dyn cnt i, Some i) -> i < cnt -> forall b n p,
    turn U cs b (n, p) (S (N.to_nat i), O) -> outcome b n p (arrive E U st (dv_page d) 3 fw).
  Proof.
    intros fw i Hx Hi b n p Ht. unfold arrive. rewrite low_cell, low_step.
    destruct (go_page E st pages Hpg UiLower _ i Hx Hi (or_intror eq_refl)) as [(t & x & Pg & D)|(outs & Fl & D & N1 & N2 & s & Fs)].
    - rewrite D. left. cbn [fst snd]. split; [|apply quiet_page]. exists 2%nat, (S (N.to_nat i)), 0%nat.
      split; [reflexivity|]. split; [apply (stand_page E U st title pages Hp Hf Hpg); assumption|exact Ht].
    - right. destruct (display_dynamic E st (ui_dynamic_step_right (st_dyn st))) as [st' o]. cbn [snd] in D. subst o. split; [exact Fl|]. exists (S (N.to_nat i), O). split; [exact Ht|]. exact (cs_fail E st title pages Hpg i s Hi Fs).
  Qed.
  Lemma up_out : forall fw, ui_dynamic_step_left (st_dyn st) = (mk_dyn cnt 255, None) -> forall b n p,
    turn U cs b (n, p) (O, O) -> outcome b n p (arrive E U st (dv_page d) 1 fw).
  Proof.
    intros fw Hx b n p Ht. unfold arrive. rewrite up_cell, up_step, Hx. unfold display_dynamic. cbn [fst snd]. left. cbn [fst snd]. split; [|apply quiet_nil].
    exists 0%nat, 0%nat, 0%nat.
    change (1 - 1)%nat with 0%nat. change (Nat.leb 2 1) with false. unfold land. cbv iota.
    assert (C : cell (set_dyn st (mk_dyn cnt 255)) 0 = SC_INFO title) by (unfold cell; cbn [set_dyn st_flow]; rewrite Hf; reflexivity). rewrite C. cbn [card_of extra].
    split; [reflexivity|]. split; [|exact Ht]. exact (stand_info U (set_dyn st (mk_dyn cnt 255)) title pages Hp Hf (dv_page d) (P_AT 0 0) eq_refl).
  Qed.
  Lemma low_out : forall fw, ui_dynamic_step_right (st_dyn st) = (mk_dyn cnt 255, None) -> forall b n p,
    turn U cs b (n, p) (S (N.to_nat cnt), O) -> outcome b n p (arrive E U st (dv_page d) 3 fw).
  Proof.
    intros fw Hx b n p Ht. unfold arrive. rewrite low_cell, low_step, Hx. unfold display_dynamic. cbn [fst snd]. left. cbn [fst snd]. split; [|apply quiet_nil].
    exists 4%nat, (S (N.to_nat cnt)), 0%nat. split; [reflexivity|]. split; [|exact Ht].
    exact (stand_approve E U (set_dyn st (mk_dyn cnt 255)) title pages Hp Hf Hpg (dv_page d) (P_AT 4 0) eq_refl).
  Qed.
  (** The cells without a callback. *)
  Lemma go_info : forall fw, dy_current (st_dyn st) = 255 -> forall b n p, turn U cs b (n, p) (O, O) -> outcome b n p (arrive E U st (dv_page d) 0 fw).
  Proof.
    intros fw Hc b n p Ht. unfold arrive. assert (C : cell st 0 = SC_INFO title) by (unfold cell; rewrite Hf; reflexivity). rewrite C. left. cbn [fst snd]. split; [|constructor].
    exists 0%nat, 0%nat, 0%nat. unfold land. rewrite C. cbn [card_of extra]. split; [destruct fw; reflexivity|]. split; [|exact Ht].
    destruct fw; exact (stand_info U st title pages Hp Hf (dv_page d) _ Hc).
  Qed.
  Lemma go_approve : forall fw, dy_current (st_dyn st) = 255 -> forall b n p, turn U cs b (n, p) (S (N.to_nat cnt), O) -> outcome b n p (arrive E U st (dv_page d) 4 fw).
  Proof.
    intros fw Hc b n p Ht. unfold arrive. assert (C : cell st 4 = SC_APPROVE) by (unfold cell; rewrite Hf; reflexivity). rewrite C. left. cbn [fst snd]. split; [|constructor].
    exists 4%nat, (S (N.to_nat cnt)), 0%nat. unfold land. rewrite C. cbn [card_of extra]. split; [destruct fw; reflexivity|]. split; [|exact Ht].
    destruct fw; exact (stand_approve E U st title pages Hp Hf Hpg (dv_page d) _ Hc).
  Qed.
  Lemma go_reject : forall fw, dy_current (st_dyn st) = 255 -> forall b n p, turn U cs b (n, p) (S (S (N.to_nat cnt)), O) -> outcome b n p (arrive E U st (dv_page d) 5 fw).
  Proof.
    intros fw Hc b n p Ht. unfold arrive. assert (C : cell st 5 = SC_REJECT) by (unfold cell; rewrite Hf; reflexivity). rewrite C. left. cbn [fst snd]. split; [|constructor].
    exists 5%nat, (S (S (N.to_nat cnt))), 0%nat. unfold land. rewrite C. cbn [card_of extra]. split; [destruct fw; reflexivity|]. split; [|exact Ht].
    destruct fw; exact (stand_reject E U st title pages Hp Hf Hpg (dv_page d) _ Hc).
  Qed.

  Lemma paged_walk : forall i n p b, dv_at d = P_AT i p -> standing U (paged_flow title) pages d i n p -> b <> BOTH -> outcome b n p (press E U d b).
  Proof.
    intros i n p b A St Hb. destruct St as [Sc (c & C1 & C2 & Lp)]. pose proof (cs_length E st title pages Hpg) as Lc. fold cs cnt in Lc.
    assert (Same : forall q, (q <= extra U c)%nat -> standing U (paged_flow title) pages (mk_device (dv_st d) (dv_page d) (P_AT i q)) i n q).
    { intros q L'. split; [exact Sc|]. exists c. auto. }
    assert (Ci : forall j, cell (dv_st d) j = nth j (paged_flow title) SC_END) by (intro j; unfold cell; fold st; rewrite Hf; reflexivity).
    unfold press. rewrite A, C2. unfold at_card in Sc. fold st in Sc. rewrite Hp in Sc. fold cnt in Sc. destruct Hd as [Hcnt _].
    destruct b; [| |congruence].
    - destruct p as [|p].
      2: { left. cbn [fst snd]. split; [|constructor]. exists i, n, p. split; [reflexivity|]. split; [apply Same; lia|apply turn_back_part]. }
      unfold flow_prev. destruct Sc as [(-> & -> & Hc)|[(-> & -> & Hc)|[(-> & -> & Hc)|(-> & -> & Hc)]]].
      + change (st_flow (dv_st d)) with (st_flow st). rewrite Hf. change (length (paged_flow title) - 2)%nat with 6%nat. change (length (paged_flow title) - 3)%nat with 5%nat.
        rewrite Ci. cbn [nth paged_flow]. apply go_reject; [exact Hc|]. apply turn_back_around. fold cs. lia.
      + destruct (N.eq_dec (dy_current (st_dyn st)) 0) as [K|K].
        * rewrite K. apply up_out; [apply dyn_left_out; exact K|]. apply turn_left.
        * apply (up_page false (dy_current (st_dyn st) - 1)); [apply dyn_left; [fold cnt in Hcnt; lia|exact K]|lia|].
          replace (N.to_nat (dy_current (st_dyn st))) with (S (N.to_nat (dy_current (st_dyn st) - 1))) by lia. apply turn_left.
      + apply (low_page false (cnt - 1)); [apply dyn_right_in; [exact Hd|exact Hc]|fold cnt in Hcnt; lia|].
        replace (N.to_nat cnt) with (S (N.to_nat (cnt - 1))) by (fold cnt in Hcnt; lia). apply turn_left.
      + apply go_approve; [exact Hc|]. apply turn_left.
    - destruct (Nat.ltb_spec p (extra U c)) as [L|L].
      { left. cbn [fst snd]. split; [|constructor]. exists i, n, (S p). split; [reflexivity|]. split; [apply Same; lia|]. apply turn_part. eapply last_not; eassumption. }
      assert (LP : last_part U (cards (paged_flow title) pages) n p) by (exists c; split; [exact C1|lia]).
      unfold flow_next. rewrite Ci. destruct Sc as [(-> & -> & Hc)|[(-> & -> & Hc)|[(-> & -> & Hc)|(-> & -> & Hc)]]]; cbn [nth paged_flow].
      + apply (up_page true 0); [apply dyn_left_in; exact Hc|fold cnt in Hcnt; lia|]. change (N.to_nat 0) with 0%nat. apply turn_right; [exact LP|fold cs; lia].
      + destruct (N.eq_dec (dy_current (st_dyn st) + 1) cnt) as [K|K].
        * apply low_out; [apply dyn_right_out; [exact Hd|exact K]|]. replace (N.to_nat cnt) with (S (N.to_nat (dy_current (st_dyn st)))) by lia.
          apply turn_right; [exact LP|fold cs; lia].
        * apply (low_page true (dy_current (st_dyn st) + 1)); [apply dyn_right; [exact Hd|fold cnt; lia]|lia|].
          replace (N.to_nat (dy_current (st_dyn st) + 1)) with (S (N.to_nat (dy_current (st_dyn st)))) by lia. apply turn_right; [exact LP|fold cs; lia].
      + apply go_reject; [exact Hc|]. apply turn_right; [exact LP|fold cs; lia].
      + change (Nat.leb 5 0) with false. apply go_info; [exact Hc|]. apply turn_around; [exact LP|fold cs; lia].
  Qed.
End PagedWalk.

(** ** Both buttons *)

(** Case distinctions from the inside. *)
Ltac splits H := repeat match type of H with context [match ?x with _ => _ end] =>
  match x with context [match _ with _ => _ end] => fail 1 | _ => destruct x end end.
Lemma approve_answers : forall E key tr st e st' outs q k f pages, env_ok E -> history E key tr st -> on_screen tr = Some (q, k, f, pages) ->
  e = UiApprove \/ (e = UiPathBoth /\ k = U_STX_APPROVE) -> step E st e = (st', outs) -> exists b s, outs = [OResp b s].
Proof.
  intros E key tr st e st' outs q k f pages Henv H Ho He Es.
  destruct (screen_state _ _ _ _ _ _ _ _ Henv H Ho) as (B & U & _ & _). pose proof (history_shape _ _ _ _ H) as Sh.
  assert (Nm : menu_ui (st_ui st) = false). { destruct (menu_ui (st_ui st)) eqn:K; [|reflexivity]. rewrite (menu_idle _ Sh K) in B. discriminate. }
  assert (Nd : outs <> [] /\ ~ In ODiverge outs).
  { clear - Es He Nm U. destruct He as [-> | [-> ->]].
    - cbn [step] in Es. unfold ui_action in Es. destruct (st_ui st), (st_ctx st); try discriminate.
      all: unfold ui_action_epk, ui_action_da, ui_action_attest, ui_action_stx_approve, ui_action_stx_output, ui_action_stx_tx in Es; cbv iota zeta in Es.
      all: splits Es; try injection Es as <- <-.
      all: (split; [discriminate|intros [K|[]]; try discriminate K]). all: unfold resp in K; splits K; discriminate.
    - cbn [step] in Es. unfold ui_path_both in Es. rewrite U in Es. destruct (st_ctx st); unfold ui_action_stx_approve in Es; cbv iota zeta in Es.
      all: splits Es; try injection Es as <- <-.
      all: (split; [discriminate|intros [K|[]]; discriminate K]). }
  destruct Nd as [Ne Hd].
  assert (Nu : ~ In OUb outs).
  { intros Hin.
    assert (Hh : history E key (tr ++ [(e, outs)]) st').
    { eapply history_step; eauto. destruct He as [-> | [-> _]]; exact I. }
    apply (device_ub _ _ _ _ _ _ Henv Hh) in Hin as [[K|K] _]; destruct He as [He|[He _]]; congruence. }
  destruct (step_move E st e st' outs Sh Es); try (exfalso; apply Nu; left; reflexivity); try (exfalso; apply Ne; reflexivity); try (exfalso; apply Hd; left; reflexivity); eauto.
  all: try (destruct He as [He|[He _]]; discriminate He).
  all: try (destruct b; eauto; fail). all: try (destruct s; cbn [resp] in *; eauto; exfalso; apply Nu; left; reflexivity).
  all: destruct H1 as [[K _]|[K _]]; destruct He as [He|[He _]]; congruence.
Qed.

(** ** A press while a question is there *)

(** The path of a key or address request was validated. *)
Definition stuck (k : ui_kind) (d d' : device) (i p : nat) (b : button) (os : list obs) : Prop :=
  b = BOTH /\ (k = U_EPK \/ k = U_DA) /\ os = [(UiPathBoth, [])] /\ d' = mk_device (dv_st d) (dv_page d) (P_DEAD i p) /\
  (exists t x, cell (dv_st d) i = SC_PATH t x false).
Definition moved (U : ux) (f : flow) (pages : list page) (b : button) (d d' : device) (n p : nat) (os : list obs) : Prop :=
  steps_to U f pages b d d' n p /\ Forall quiet os.

Lemma displayed_standing : forall U f pages d i n p c, standing U f pages d i n p -> dv_at d = P_AT i p \/ dv_at d = P_DEAD i p ->
  nth_error (cards f pages) n = Some (Some c) -> displayed d = Some (c, p).
Proof.
  intros U f pages d i n p c [_ (c' & C1 & C2 & _)] A H. rewrite H in C1. injection C1 as <-. unfold displayed. destruct A as [-> | ->]; rewrite C2; reflexivity.
Qed.
Lemma sound_one : forall e outs, sound [(e, outs)] <-> ~ In ODiverge outs /\ ~ In OUb outs.
Proof. intros. split; [intros H; inversion H; assumption|intros H; constructor; [exact H|constructor]]. Qed.

Lemma both_press : forall E U key tr d q k f pages i n p d' os, env_ok E -> history E key tr (dv_st d) -> on_screen tr = Some (q, k, f, pages) ->
  dv_at d = P_AT i p -> standing U f pages d i n p -> press E U d BOTH = (d', os) ->
  (d' = d /\ os = []) \/ decision k pages d BOTH os \/ stuck k d d' i p BOTH os.
Proof.
  intros E U key tr d q k f pages i n p d' os Henv H Ho A St P. pose proof St as [_ (c & C1 & C2 & Lp)].
  destruct (screen_state _ _ _ _ _ _ _ _ Henv H Ho) as (_ & Uk & F & _).
  pose proof (displayed_standing _ _ _ _ _ _ _ _ St (or_introl A) C1) as Dp.
  unfold press in P. rewrite A, C2 in P. destruct (_ && _); [left; split; congruence|].
  unfold validate, fire in P.
  assert (Hin : cell (dv_st d) i <> SC_END -> In (cell (dv_st d) i) f).
  { intros K. unfold cell in *. rewrite F in *. destruct (Nat.lt_ge_cases i (length f)) as [L|L]; [apply nth_In; exact L|]. rewrite nth_overflow in K by assumption. congruence. }
  destruct (cell (dv_st d) i) eqn:Ec; try (left; split; congruence).
  - (* the path *)
    destruct (path_form _ _ _ _ _ _ _ _ _ _ _ Henv H Ho (Hin ltac:(discriminate))) as [[-> ->]|[Hk ->]].
    + destruct (step E (dv_st d) UiPathBoth) as [st' outs] eqn:Es. injection P as <- <-.
      destruct (approve_answers _ _ _ _ _ _ _ _ _ _ _ Henv H Ho (or_intror (conj eq_refl eq_refl)) Es) as (x & s & ->).
      right. left. right. right. left. split; [reflexivity|]. split; [reflexivity|]. split; [|eauto]. cbn [card_of] in C2. injection C2 as <-. eauto.
    + assert (Es : step E (dv_st d) UiPathBoth = (dv_st d, [])).
      { cbn [step]. unfold ui_path_both. rewrite Uk. destruct Hk as [-> | ->]; reflexivity. }
      rewrite Es in P. injection P as <- <-. right. right. split; [reflexivity|]. split; [exact Hk|]. split; [reflexivity|]. split; [reflexivity|]. eauto.
  - assert (p = O) by (injection C2 as <-; cbn in Lp; lia). subst p. cbn [card_of] in C2. injection C2 as <-.
    destruct (step E (dv_st d) UiApprove) as [st' outs] eqn:Es. injection P as <- <-.
    destruct (approve_answers _ _ _ _ _ _ _ _ _ _ _ Henv H Ho (or_introl eq_refl) Es) as (x & s & ->).
    right. left. left. split; [reflexivity|]. split; [exact Dp|]. eauto.
  - assert (p = O) by (injection C2 as <-; cbn in Lp; lia). subst p. cbn [card_of] in C2. injection C2 as <-.
    destruct (reject_screen _ _ _ _ _ Henv H Ho) as (st' & Es & _). rewrite Es in P. injection P as <- <-.
    right. left. right. left. auto.
  - (* no menu entry *)
    exfalso. pose proof (Hin ltac:(discriminate)) as Hi. destruct (question_form _ _ _ _ _ _ _ _ Henv H Ho) as [(_ & _ & body & -> & Hs)|(_ & (tt & ->) & _)].
    + apply in_app_iff in Hi as [Hi|Hi]; [rewrite Forall_forall in Hs; apply (Hs _ Hi)|]. repeat (destruct Hi as [Hi|Hi]; [discriminate|]). destruct Hi.
    + unfold paged_flow in Hi. repeat (destruct Hi as [Hi|Hi]; [discriminate|]). destruct Hi.
Qed.

Lemma question_press : forall E U key tr d q k f pages i n p b d' os, env_ok E -> history E key tr (dv_st d) -> on_screen tr = Some (q, k, f, pages) ->
  dv_at d = P_AT i p -> standing U f pages d i n p -> press E U d b = (d', os) ->
  (forall s, In (Fail s) pages -> False) \/ sound os ->
  moved U f pages b d d' n p os \/ decision k pages d b os \/ stuck k d d' i p b os.
Proof.
  intros E U key tr d q k f pages i n p b d' os Henv H Ho A St P Hs. destruct (screen_state _ _ _ _ _ _ _ _ Henv H Ho) as (_ & Uk & F & _).
  destruct b; [| |].
  3: { destruct (both_press _ _ _ _ _ _ _ _ _ _ _ _ _ _ Henv H Ho A St P) as [[-> ->]|[D|D]]; auto. left. split; [|constructor].
       exists i, n, p. split; [exact A|]. split; [exact St|apply turn_both]. }
  all: destruct (question_form _ _ _ _ _ _ _ _ Henv H Ho) as [Sf|(Hp & (tt & Hf) & Hpg & Hd)].
  1, 3: left; match type of P with press _ _ _ ?b = _ => assert (Nb : b <> BOTH) by discriminate end;
    destruct (static_walk _ _ _ _ _ _ _ _ _ _ _ _ Sf Uk F A St Nb P) as [-> K]; split; [exact K|constructor].
  all: rewrite Hf in *; clear f Hf; rewrite <- Uk in Hp, Hpg.
  - pose proof (paged_walk E U d tt pages Hp F Hpg Hd i n p LEFT A St ltac:(discriminate)) as W. rewrite P in W. cbn [fst snd] in W.
    destruct W as [W|[(e & s & He & Hin & W) _]]; [left; exact W|]. right. left. right. right. right. split; [discriminate|]. exists e, s.
    destruct W as [[W1 W2]|[_ ->]]; [auto|]. exfalso. destruct Hs as [Hs|Hs]; [eapply Hs; eassumption|]. apply sound_one in Hs as [_ Hs]. apply Hs. left. reflexivity.
  - pose proof (paged_walk E U d tt pages Hp F Hpg Hd i n p RIGHT A St ltac:(discriminate)) as W. rewrite P in W. cbn [fst snd] in W.
    destruct W as [W|[(e & s & He & Hin & W) _]]; [left; exact W|]. right. left. right. right. right. split; [discriminate|]. exists e, s.
    destruct W as [[W1 W2]|[_ ->]]; [auto|]. exfalso. destruct Hs as [Hs|Hs]; [eapply Hs; eassumption|]. apply sound_one in Hs as [_ Hs]. apply Hs. left. reflexivity.
Qed.

(** A single button leads on, unless the card there cannot be computed. *)
Lemma question_turn : forall E U key tr d q k f pages i n p b d' os, env_ok E -> history E key tr (dv_st d) -> on_screen tr = Some (q, k, f, pages) ->
  dv_at d = P_AT i p -> standing U f pages d i n p -> press E U d b = (d', os) -> b <> BOTH ->
  moved U f pages b d d' n p os \/ exists y, turn U (cards f pages) b (n, p) y /\ nth_error (cards f pages) (fst y) = Some None.
Proof.
  intros E U key tr d q k f pages i n p b d' os Henv H Ho A St P Nb. destruct (screen_state _ _ _ _ _ _ _ _ Henv H Ho) as (_ & Uk & F & _).
  destruct (question_form _ _ _ _ _ _ _ _ Henv H Ho) as [Sf|(Hp & (tt & Hf) & Hpg & Hd)].
  - left. destruct (static_walk _ _ _ _ _ _ _ _ _ _ _ _ Sf Uk F A St Nb P) as [-> K]. split; [exact K|constructor].
  - rewrite Hf in *. clear f Hf. rewrite <- Uk in Hp, Hpg. pose proof (paged_walk E U d tt pages Hp F Hpg Hd i n p b A St Nb) as W. rewrite P in W. cbn [fst snd] in W.
    destruct W as [W|[_ W]]; [left; exact W|right; exact W].
Qed.

Lemma quiet_screen : forall os tr, Forall quiet os -> on_screen (tr ++ os) = on_screen tr.
Proof.
  induction os as [|o os IH] using rev_ind; intros tr H; [rewrite app_nil_r; reflexivity|]. apply Forall_app in H as [H1 H2]. inversion H2 as [|x l (K1 & K2 & _) _]; subst.
  rewrite app_assoc, on_screen_snoc. unfold question_after. rewrite K1, K2, andb_false_r. apply IH. exact H1.
Qed.

(** ** The question is put *)

Lemma fresh_dyn : forall E key tr st e k f pages, history E key (tr ++ [(e, [OShow k f pages])]) st -> dy_current (st_dyn st) = 255.
Proof.
  intros E key tr st e k f pages H. apply history_last in H as (st0 & _ & _ & _ & _ & M & _).
  assert (K : forall outs st', move E st0 e st' outs -> outs = [OShow k f pages] -> st_dyn st' = dyn_none \/ dy_current (st_dyn st') = 255).
  { clear. intros outs st' M Eo. destruct M; try discriminate Eo; try (left; reflexivity).
    all: try (destruct s; discriminate). all: try (destruct b; discriminate).
    - right. apply output_flow in H7 as (_ & _ & Hd & _). exact Hd.
    - right. apply confirm_flow in H4 as (_ & _ & Hd & _). exact Hd. }
  destruct (K _ _ M eq_refl) as [K1|K1]; [rewrite K1; reflexivity|exact K1].
Qed.
Lemma put_start : forall E U key l d k f pages, env_ok E -> operated E U key l d -> put l k f pages ->
  (exists e, on_screen (happened l) = Some (e, k, f, pages)) /\ dv_at d = P_AT 0 0 /\ standing U f pages d 0 0 0.
Proof.
  intros E U key l d k f pages Henv H (l0 & e & ->). pose proof (operated_history _ _ _ _ _ H) as Hh. rewrite happened_snoc in *.
  assert (Ho : on_screen (happened l0 ++ [(e, [OShow k f pages])]) = Some (e, k, f, pages)) by (rewrite on_screen_snoc; reflexivity).
  split; [eauto|]. destruct (screen_state _ _ _ _ _ _ _ _ Henv Hh Ho) as (_ & Uk & F & _).
  apply operated_last in H as (d0 & _ & _ & Hop & _). cbn [operate] in Hop. apply receive_shape in Hop as [(_ & K & _)|(outs & _ & K & _ & _ & A)]; [discriminate|].
  assert (outs = [OShow k f pages]) by congruence. subst outs. cbn [shown_by] in A. split; [exact A|].
  destruct d as [st pg at_]. cbn [dv_st dv_at] in *. subst at_.
  destruct (question_form _ _ _ _ _ _ _ _ Henv Hh Ho) as [(Hp & Hpg & body & Hf & Hs)|(Hp & (tt & Hf) & Hpg & Hd)].
  - destruct (static_land U body st pages pg 0 true) with (E := E) as (p & _ & Hst & Hz); [congruence|exact Hs|congruence|lia|].
    rewrite (Hz eq_refl) in Hst. rewrite F in Hst. exact Hst.
  - subst f. rewrite Hf. apply stand_info; [congruence|congruence|]. eapply fresh_dyn. exact Hh.
Qed.

Lemma still_snoc : forall l x, still (l ++ [x]) <-> still l /\ match fst x with Press _ => answered x = false | Host _ => True end.
Proof.
  intros. unfold still. rewrite Forall_app. split; intros [A B]; (split; [exact A|]); [inversion B; assumption|constructor; [exact B|constructor]].
Qed.
Lemma pressed_snoc : forall l a os, pressed (l ++ [(a, os)]) = pressed l ++ match a with Press b => [b] | Host _ => [] end.
Proof. intros. unfold pressed. rewrite flat_map_app. cbn. rewrite app_nil_r. reflexivity. Qed.

Lemma decision_answered : forall k pages d b os, decision k pages d b os -> answered (Press b, os) = true.
Proof.
  intros k pages d b os [(_ & _ & x & s & ->)|[(_ & _ & ->)|[(_ & _ & _ & x & s & ->)|(_ & e & s & _ & _ & _ & ->)]]]; reflexivity.
Qed.

(** Where the device is while a question is there. *)
Definition located (U : ux) (k : ui_kind) (f : flow) (pages : list page) (d : device) (bs : list button) : Prop :=
  exists i n p bs0, standing U f pages d i n p /\ turned U (cards f pages) bs0 (O, O) (n, p) /\
    ((dv_at d = P_AT i p /\ bs = bs0) \/
     (dv_at d = P_DEAD i p /\ (k = U_EPK \/ k = U_DA) /\ (exists rest, bs = bs0 ++ BOTH :: rest) /\ exists t x, cell (dv_st d) i = SC_PATH t x false)).

Lemma standing_valid : forall U f pages d i n p, standing U f pages d i n p -> valid U (cards f pages) (n, p).
Proof. intros U f pages d i n p [_ (c & C1 & _ & L)]. exists c. auto. Qed.
Lemma standing_place : forall U f pages st pg a1 a2 i n p, standing U f pages (mk_device st pg a1) i n p -> standing U f pages (mk_device st pg a2) i n p.
Proof. intros U f pages st pg a1 a2 i n p H. exact H. Qed.

Lemma question_run : forall E U key l l' d k f pages, env_ok E -> put l k f pages -> operated E U key (l ++ l') d -> still l' ->
  (exists e, on_screen (happened (l ++ l')) = Some (e, k, f, pages)) /\ located U k f pages d (pressed l').
Proof.
  intros E U key l l' d k f pages Henv Hput. revert d. induction l' as [|[a os] l' IH] using rev_ind; intros d H Hs.
  - rewrite app_nil_r in *. destruct (put_start _ _ _ _ _ _ _ _ Henv H Hput) as (Ho & A & St). split; [exact Ho|].
    exists 0%nat, 0%nat, 0%nat, []. split; [exact St|]. split; [constructor|]. left. auto.
  - apply still_snoc in Hs as [Hs Hx]. rewrite app_assoc in *. apply operated_last in H as (d0 & H0 & Ha & Hop & Hso).
    destruct (IH _ H0 Hs) as ((e0 & Ho) & i & n & p & bs0 & St & Tu & Pl). pose proof (operated_history _ _ _ _ _ H0) as Hh.
    rewrite happened_snoc, pressed_snoc. destruct a as [e|b]; cbn [operate fst] in *.
    + rewrite app_nil_r. destruct Ha as [Hu _].
      destruct (receive_shape _ _ _ _ _ Hop) as [(Off & _)|(outs & _ & -> & Es & Epg & Eat)]; [destruct Pl as [[Pl _]|[Pl _]]; congruence|].
      destruct (host_step_busy _ _ _ _ _ (screen_busy _ _ _ _ _ Henv Hh Ho) Hu Es) as (Est & b & s & ->). cbn [shown_by] in Eat.
      split; [exists e0; rewrite on_screen_snoc; unfold question_after; cbn [fst snd shown_by]; rewrite Hu; exact Ho|].
      rewrite Est, kept_same in Eat. assert (d = d0) by (destruct d as [s1 g1 a1], d0 as [s0 g0 a0]; cbn [dv_st dv_page dv_at] in *; congruence). subst d. exists i, n, p, bs0. auto.
    + destruct Pl as [[Pl Ebs]|(Pl & Hk & (rest & Er) & Hc)].
      2: { unfold press in Hop. rewrite Pl in Hop. injection Hop as <- <-. rewrite app_nil_r. split; [eauto|]. exists i, n, p, bs0. do 2 (split; [assumption|]).
           right. do 2 (split; [assumption|]). split; [|assumption]. exists (rest ++ [b]). rewrite Er, <- app_assoc. reflexivity. }
      destruct (question_press _ _ _ _ _ _ _ _ _ _ _ _ _ _ _ Henv Hh Ho Pl St Hop (or_intror Hso)) as [[(i' & n' & p' & A' & St' & Tn) Q]|[D|(-> & Hk & -> & -> & Hc)]].
      * split; [exists e0; rewrite quiet_screen by exact Q; exact Ho|]. exists i', n', p', (bs0 ++ [b]). split; [exact St'|].
        split; [eapply turned_more; [exact Tu|exact Tn|eapply standing_valid; exact St']|]. left. split; [exact A'|congruence].
      * rewrite (decision_answered _ _ _ _ _ D) in Hx. discriminate.
      * split; [exists e0; rewrite on_screen_snoc; exact Ho|]. exists i, n, p, bs0. split; [destruct d0; exact St|]. split; [exact Tu|].
        right. split; [reflexivity|]. split; [exact Hk|]. split; [exists []; congruence|exact Hc].
Qed.

Lemma dead_place : forall E U d i p, dv_at d = P_DEAD i p \/ dv_at d = P_OFF -> dead E U d.
Proof. intros E U d i p H b. unfold press. destruct H as [-> | ->]; reflexivity. Qed.

Lemma question_cards : forall E U key l l' d k f pages, env_ok E -> operated E U key (l ++ l') d -> put l k f pages -> still l' ->
  exists n p c, displayed d = Some (c, p) /\ nth_error (cards f pages) n = Some (Some c) /\ (p <= extra U c)%nat /\
    (turned U (cards f pages) (pressed l') (O, O) (n, p) \/
     (k = U_EPK \/ k = U_DA) /\ dead E U d /\ exists bs rest, pressed l' = bs ++ BOTH :: rest /\ turned U (cards f pages) bs (O, O) (n, p)).
Proof.
  intros E U key l l' d k f pages Henv H Hput Hs. destruct (question_run _ _ _ _ _ _ _ _ _ Henv Hput H Hs) as (_ & i & n & p & bs0 & St & Tu & Pl).
  pose proof St as [_ (c & C1 & _ & L)]. exists n, p, c. split; [eapply displayed_standing; [exact St|destruct Pl as [[Pl _]|[Pl _]]; eauto|exact C1]|].
  split; [exact C1|]. split; [exact L|]. destruct Pl as [[Pl ->]|(Pl & Hk & (rest & Er) & Hc)]; [left; exact Tu|]. right. split; [exact Hk|]. split; [eapply dead_place; eauto|]. eauto.
Qed.
