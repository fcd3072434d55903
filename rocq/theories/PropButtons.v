(** C66: the buttons. *)
From Coq Require Import String.
From Verif Require Import Lib Env TxTable UiFlow P2pkOp App SpecTx SpecTrace SpecApdu SpecScreen SpecSign Toy Buttons SpecButtons ButtonProofs ButtonRun ButtonToy.

(** C66.  Operating the device by its buttons gives histories of the application, and the
    question before the user is the last one put that no press has been answered for. *)
Theorem C66_history : forall E U key l d, operated E U key l d -> history E key (happened l) (dv_st d).
Proof. exact operated_history. Qed.
Print Assumptions C66_history.
Theorem C66_put : forall E U key l d k f pages, env_ok E -> operated E U key l d ->
  ((exists q, on_screen (happened l) = Some (q, k, f, pages)) <-> exists l1 l2, l = l1 ++ l2 /\ put l1 k f pages /\ still l2).
Proof. exact put_iff. Qed.
Print Assumptions C66_put.

(** While a question is there, the display shows one of its cards (or a part of one), and
    which one follows from the buttons pressed since: right and left turn the cards, first
    the parts of a text.  Otherwise both buttons were pressed on the path of a key or
    address request, and the buttons are dead. *)
Theorem C66_question : forall E U key l l' d k f pages, env_ok E -> operated E U key (l ++ l') d -> put l k f pages -> still l' ->
  exists n p c, displayed d = Some (c, p) /\ nth_error (cards f pages) n = Some (Some c) /\ (p <= extra U c)%nat /\
    (turned U (cards f pages) (pressed l') (O, O) (n, p) \/
     (k = U_EPK \/ k = U_DA) /\ dead E U d /\ exists bs rest, pressed l' = bs ++ BOTH :: rest /\ turned U (cards f pages) bs (O, O) (n, p)).
Proof. exact question_cards. Qed.
Print Assumptions C66_question.
Example C66_question_ex : exists k f pages b, put (deeds TO_CONFIRM) k f pages /\ still (then_deeds TO_CONFIRM b) /\
  operated toy toy_ux TOY_KEY (deeds TO_CONFIRM ++ then_deeds TO_CONFIRM b) (then_after TO_CONFIRM b) /\
  match displayed (then_after TO_CONFIRM b) with Some (C_TEXT _ _, 5%nat) => True | _ => False end.
Proof.
  destruct (asking (deeds TO_CONFIRM)) as [[[k f] pages]|] eqn:A; [|vm_compute in A; discriminate A]. exists k, f, pages, (rights 12).
  destruct (toy_question TO_CONFIRM (rights 12) k f pages A) as (Q1 & Q2 & Q3); [vm_compute; reflexivity|]. do 3 (split; [assumption|]). vm_compute. exact I.
Qed.

(** A press is answered to the host only as decided: both buttons on Approve or Reject,
    both buttons on the path when signing begins, or turning to a page that fails; and on
    Approve and Reject both buttons always are. *)
Theorem C66_decide : forall E U key l l' b os d d', env_ok E -> forall k f pages, put l k f pages -> still l' -> operated E U key (l ++ l') d ->
  operated E U key ((l ++ l') ++ [(Press b, os)]) d' -> answered (Press b, os) = true -> decision k pages d b os.
Proof. exact decides. Qed.
Print Assumptions C66_decide.
Theorem C66_acts : forall E U key l l' d k f pages, env_ok E -> put l k f pages -> still l' -> operated E U key (l ++ l') d ->
  (forall p, displayed d = Some (C_APPROVE, p) -> exists x s, snd (press E U d BOTH) = [(UiApprove, [OResp x s])]) /\
  (forall p, displayed d = Some (C_REJECT, p) -> snd (press E U d BOTH) = [(UiReject, [OResp [] SW_DENY])]).
Proof. exact acts. Qed.
Print Assumptions C66_acts.
Example C66_decide_ex : exists k f pages, put (deeds TO_KEY) k f pages /\ still (then_deeds TO_KEY (rights 4)) /\
  operated toy toy_ux TOY_KEY (deeds TO_KEY ++ then_deeds TO_KEY (rights 4)) (then_after TO_KEY (rights 4)) /\
  displayed (then_after TO_KEY (rights 4)) = Some (C_REJECT, O) /\ displayed (then_after TO_KEY (rights 3)) = Some (C_APPROVE, O).
Proof.
  destruct (asking (deeds TO_KEY)) as [[[k f] pages]|] eqn:A; [|vm_compute in A; discriminate A]. exists k, f, pages.
  destruct (toy_question TO_KEY (rights 4) k f pages A) as (Q1 & Q2 & Q3); [vm_compute; reflexivity|]. do 3 (split; [assumption|]). split; vm_compute; reflexivity.
Qed.

(** A signature is given only when both buttons are pressed with Approve displayed, at the
    final question of a signing session. *)
Theorem C66_signature : forall E U key l a os d o sig, env_ok E -> operated E U key (l ++ [(a, os)]) d -> In o os -> signature o = Some sig ->
  a = Press BOTH /\ exists d0 l1 l2 f pages, operated E U key l d0 /\ displayed d0 = Some (C_APPROVE, O) /\ l = l1 ++ l2 /\ put l1 U_STX_TX f pages /\ still l2.
Proof. exact sign_press. Qed.
Print Assumptions C66_signature.
Example C66_signature_ex : let l := deeds (by_hand SIGN_ALL) in
  operated toy toy_ux TOY_KEY l (after (by_hand SIGN_ALL)) /\ existsb (fun x => existsb (fun o => match signature o with Some _ => true | None => false end) (snd x)) l = true.
Proof. split; [apply deeds_operated|]. vm_compute. reflexivity. Qed.

(** When Approve is displayed, then either Reject was displayed before, or every card of
    the question was, with all its parts; so for every signature. *)
Theorem C66_read : forall E U key l l' d k f pages q, env_ok E -> put l k f pages -> still l' -> operated E U key (l ++ l') d -> displayed d = Some (C_APPROVE, q) ->
  seen E U key l l' C_REJECT O \/
  forall oc, In oc (cards f pages) -> exists c, oc = Some c /\ (c = C_REJECT \/ forall p, (p <= extra U c)%nat -> seen E U key l l' c p).
Proof. exact reads. Qed.
Print Assumptions C66_read.
Theorem C66_read_signed : forall E U key l os d o sig, env_ok E -> operated E U key (l ++ [(Press BOTH, os)]) d -> In o os -> signature o = Some sig ->
  exists l1 l2 f pages, l = l1 ++ l2 /\ put l1 U_STX_TX f pages /\ still l2 /\
    (seen E U key l1 l2 C_REJECT O \/
     forall oc, In oc (cards f pages) -> exists c, oc = Some c /\ (c = C_REJECT \/ forall p, (p <= extra U c)%nat -> seen E U key l1 l2 c p)).
Proof. exact reads_signed. Qed.
Print Assumptions C66_read_signed.
Example C66_read_ex : exists k f pages, put (deeds TO_KEY) k f pages /\ still (then_deeds TO_KEY (rights 3)) /\
  operated toy toy_ux TOY_KEY (deeds TO_KEY ++ then_deeds TO_KEY (rights 3)) (then_after TO_KEY (rights 3)) /\
  displayed (then_after TO_KEY (rights 3)) = Some (C_APPROVE, O) /\ ~ seen toy toy_ux TOY_KEY (deeds TO_KEY) (then_deeds TO_KEY (rights 3)) C_REJECT O.
Proof.
  destruct (asking (deeds TO_KEY)) as [[[k f] pages]|] eqn:A; [|vm_compute in A; discriminate A]. exists k, f, pages.
  destruct (toy_question TO_KEY (rights 3) k f pages A) as (Q1 & Q2 & Q3); [vm_compute; reflexivity|]. do 3 (split; [assumption|]). split; [vm_compute; reflexivity|].
  intros K. apply toy_seen in K as (n & L & D); [|vm_compute; discriminate]. do 4 (destruct n as [|n]; [vm_compute in D; discriminate D|]). cbn [length rights repeat] in L. lia.
Qed.
(** The stronger claim, that whoever signs has had the pages on the display, is false:
    from the first card, left twice leads to Approve. *)
Theorem C66_unread_refuted : exists E U key l l' os d f pages, env_ok E /\ put l U_STX_TX f pages /\ still l' /\
  operated E U key ((l ++ l') ++ [(Press BOTH, os)]) d /\ existsb (fun o => match signature o with Some _ => true | None => false end) os = true /\
  forall t b p, ~ seen E U key l l' (C_TEXT t b) p.
Proof.
  destruct (asking (deeds TO_CONFIRM)) as [[[k f] pages]|] eqn:A; [|vm_compute in A; discriminate A].
  assert (k = U_STX_TX). { assert (K : match asking (deeds TO_CONFIRM) with Some (U_STX_TX, _, _) => True | _ => False end) by (vm_compute; exact I). rewrite A in K. destruct k; try destruct K; reflexivity. }
  subst k. destruct (toy_question TO_CONFIRM [Press LEFT; Press LEFT] U_STX_TX f pages A) as (Q1 & Q2 & Q3); [vm_compute; reflexivity|].
  destruct (press toy toy_ux (then_after TO_CONFIRM [Press LEFT; Press LEFT]) BOTH) as [d os] eqn:P.
  assert (S : existsb (fun o => match signature o with Some _ => true | None => false end) (snd (press toy toy_ux (then_after TO_CONFIRM [Press LEFT; Press LEFT]) BOTH)) = true) by (vm_compute; reflexivity).
  assert (So : soundb (snd (press toy toy_ux (then_after TO_CONFIRM [Press LEFT; Press LEFT]) BOTH)) = true) by (vm_compute; reflexivity). rewrite P in S, So. cbn [snd] in S, So.
  exists toy, toy_ux, TOY_KEY, (deeds TO_CONFIRM), (then_deeds TO_CONFIRM [Press LEFT; Press LEFT]), os, d, f, pages. split; [exact toy_ok|]. split; [exact Q1|]. split; [exact Q2|].
  split; [eapply operated_more; [exact Q3|exact I|exact P|apply soundb_ok; exact So]|]. split; [exact S|]. intros t b p K.
  apply toy_seen in K as (n & L & D); [|vm_compute; discriminate]. do 3 (destruct n as [|n]; [vm_compute in D; discriminate D|]). cbn [length] in L. lia.
Qed.
Print Assumptions C66_unread_refuted.

(** As long as the buttons are alive and no page fails, every card of the question -
    Approve and Reject among them - is reached by pressing right, at most once per part. *)
Theorem C66_reach : forall E U key l l' d k f pages n c, env_ok E -> put l k f pages -> still l' -> operated E U key (l ++ l') d ->
  (forall s, ~ In (Fail s) pages) -> ~ dead E U d -> nth_error (cards f pages) n = Some (Some c) ->
  exists l2 d2 p, operated E U key ((l ++ l') ++ l2) d2 /\ (length l2 <= parts U (cards f pages))%nat /\
    Forall (fun x => fst x = Press RIGHT /\ answered x = false) l2 /\ displayed d2 = Some (c, p).
Proof. exact reach. Qed.
Print Assumptions C66_reach.
Example C66_reach_ex : exists k f pages, put (deeds TO_CONFIRM) k f pages /\ still (then_deeds TO_CONFIRM [Press LEFT]) /\
  operated toy toy_ux TOY_KEY (deeds TO_CONFIRM ++ then_deeds TO_CONFIRM [Press LEFT]) (then_after TO_CONFIRM [Press LEFT]) /\
  (forall s, ~ In (Fail s) pages) /\ ~ dead toy toy_ux (then_after TO_CONFIRM [Press LEFT]) /\ parts toy_ux (cards f pages) = 18%nat.
Proof.
  assert (W : match asking (deeds TO_CONFIRM) with Some (_, f, pages) => forallb (fun p => match p with Ok _ => true | Fail _ => false end) pages = true /\ parts toy_ux (cards f pages) = 18%nat | None => False end)
    by (vm_compute; split; reflexivity).
  destruct (asking (deeds TO_CONFIRM)) as [[[k f] pages]|] eqn:A; [|destruct W]. exists k, f, pages. destruct W as [W1 W2].
  destruct (toy_question TO_CONFIRM [Press LEFT] k f pages A) as (Q1 & Q2 & Q3); [vm_compute; reflexivity|]. do 3 (split; [assumption|]).
  split; [intros s Hs; rewrite forallb_forall in W1; specialize (W1 _ Hs); discriminate W1|]. split; [|exact W2].
  intros D. specialize (D RIGHT). apply (f_equal (fun x => match dv_at (fst x) with P_AT i _ => Some i | _ => None end)) in D. vm_compute in D. discriminate D.
Qed.

(** Dead buttons stay dead: the question stays for ever, whatever the host sends and
    whatever is pressed. *)
Theorem C66_frozen : forall E U key l l' d k f pages, env_ok E -> put l k f pages -> still l' -> operated E U key (l ++ l') d -> dead E U d ->
  forall l2 d2, operated E U key ((l ++ l') ++ l2) d2 -> d2 = d /\
    Forall (fun x => match fst x with Press _ => snd x = [] | Host e => exists b s, snd x = [(e, [OResp b s])] end) l2 /\
    exists q, on_screen (happened ((l ++ l') ++ l2)) = Some (q, k, f, pages).
Proof. exact frozen_question. Qed.
Print Assumptions C66_frozen.
(** So the claim that every question can be answered at any time is false. *)
Theorem C66_answerable_refuted : exists E U key l l' d k f pages, env_ok E /\ put l k f pages /\ still l' /\ operated E U key (l ++ l') d /\ dead E U d.
Proof.
  destruct (asking (deeds TO_KEY)) as [[[k f] pages]|] eqn:A; [|vm_compute in A; discriminate A].
  destruct (toy_question TO_KEY [Press RIGHT; Press RIGHT; Press BOTH] k f pages A) as (Q1 & Q2 & Q3); [vm_compute; reflexivity|].
  exists toy, toy_ux, TOY_KEY, (deeds TO_KEY), (then_deeds TO_KEY [Press RIGHT; Press RIGHT; Press BOTH]), (then_after TO_KEY [Press RIGHT; Press RIGHT; Press BOTH]), k, f, pages.
  split; [exact toy_ok|]. do 3 (split; [assumption|]). apply (dead_place _ _ _ 1%nat 1%nat). left. vm_compute. reflexivity.
Qed.
Print Assumptions C66_answerable_refuted.

(** Without a question the display shows a card of a menu, or the heading of a key or address
    request that was refused because its path cannot be written out, and no press is answered. *)
Theorem C66_menu : forall E U key l d, env_ok E -> operated E U key l d -> on_screen (happened l) = None ->
  displayed d = None \/
  exists c p, displayed d = Some (c, p) /\ (In (Some c) menu_cards \/ exists t, left_over (happened l) t /\ c = C_INFO t) /\ (p <= extra U c)%nat /\
    forall b, snd (press E U d b) = [] \/
      b = BOTH /\ c = C_BUTTON (str "About") /\ snd (press E U d b) = [(UiAbout, [])] \/
      b = BOTH /\ c = C_BUTTON (str "Back") /\ snd (press E U d b) = [(UiBack, [])].
Proof. exact menu_card. Qed.
Print Assumptions C66_menu.
(** The table of screens belongs to the menu on display and to the request being prepared:
    that the display shows nothing but the menus is false. *)
Theorem C66_menu_refuted : exists E U key l d c p, env_ok E /\ operated E U key l d /\ on_screen (happened l) = None /\
  displayed d = Some (c, p) /\ ~ In (Some c) menu_cards.
Proof.
  exists toy, toy_ux, TOY_KEY, (deeds TOO_LONG), (after TOO_LONG), (C_INFO (str "Ext PubKey Export")), 0%nat. split; [exact toy_ok|]. split; [apply deeds_operated|].
  split; [vm_compute; reflexivity|]. split; [vm_compute; reflexivity|]. assert (M : menu_cards = [Some (C_INFO (str "Ergo is ready")); Some (C_BUTTON (str "About")); Some (C_BUTTON (str "Quit"));
    Some (C_TEXT (str "Ergo App") (str "(c) 2024 Ergo")); Some (C_TEXT (str "Version") (str "0.0.5")); Some (C_BUTTON (str "Back"))]) by reflexivity. rewrite M.
  intros K. repeat (destruct K as [K|K]; [discriminate K|]). exact K.
Qed.
Print Assumptions C66_menu_refuted.
(** The application is left only by both buttons on Quit, without a question; then nothing
    happens any more. *)
Theorem C66_quit : forall E U key l d, env_ok E -> operated E U key l d -> displayed d = None ->
  exists l1 l2 d1, l = l1 ++ (Press BOTH, []) :: l2 /\ operated E U key l1 d1 /\ on_screen (happened l1) = None /\ displayed d1 = Some (C_BUTTON (str "Quit"), O).
Proof. exact off_quit. Qed.
Print Assumptions C66_quit.
Theorem C66_off : forall E U key l d, env_ok E -> operated E U key l d -> displayed d = None ->
  forall l2 d2, operated E U key (l ++ l2) d2 -> d2 = d /\ happened l2 = [].
Proof. exact off_stays. Qed.
Print Assumptions C66_off.
Example C66_menu_ex : operated toy toy_ux TOY_KEY (deeds [Press RIGHT; Press BOTH; Press LEFT]) (after [Press RIGHT; Press BOTH; Press LEFT]) /\
  displayed (after [Press RIGHT; Press BOTH; Press LEFT]) = Some (C_BUTTON (str "Back"), O) /\
  on_screen (happened (deeds [Press RIGHT; Press BOTH; Press LEFT])) = None /\
  operated toy toy_ux TOY_KEY (deeds [Press LEFT; Press BOTH]) (after [Press LEFT; Press BOTH]) /\ displayed (after [Press LEFT; Press BOTH]) = None.
Proof. split; [apply deeds_operated|]. split; [vm_compute; reflexivity|]. split; [vm_compute; reflexivity|]. split; [apply deeds_operated|vm_compute; reflexivity]. Qed.
