(** Which outputs are shown, and what their screens and the final one list. *)
From Coq Require Import String.
From Verif Require Import Lib Env Bip32 Address ErgoTree Schnorr TxTable TxBox TxFull Amounts OutputInfo UiFlow P2pkOp App
  SpecVlq SpecText SpecTree SpecTrace SpecTx SpecApdu SpecAmounts SpecScreen SpecPages SpecDispatch SpecRequest SpecSign SpecRules
  TextProofs AmountProofs TreeProofs Moves SignInv SignInput SignOutput SignRest SignShow
  TraceSign TraceScreen PageProofs TraceShow DispatchProofs FlowProofs RequestProofs SessionProofs SignedProofs RulesProofs Toy.

#[local] Arguments N.eqb : simpl never.
#[local] Arguments N.ltb : simpl never.
#[local] Arguments N.leb : simpl never.
#[local] Arguments N.sub : simpl never.
#[local] Arguments blen : simpl never.
#[local] Arguments num : simpl never.
#[local] Arguments slice : simpl never.

(** ** Token ids *)

Lemma outputs_tokens_in : forall E d h, wf E d h -> sx_outputs d <> [] -> blen (sx_tokens d) = sh_tokens h.
Proof.
  intros E d h W Ho. destruct (w_out_in _ _ _ W Ho) as [Hi _]. unfold inputs_in in Hi. apply N.eqb_eq in Hi.
  pose proof (w_inputs _ _ _ W) as Hp. pose proof (count_le _ input_complete (sx_inputs d)) as Hc. unfold done_inputs in Hi.
  assert (Hn : sx_inputs d <> []). { intro K. rewrite K in *. unfold blen in Hc. cbn in Hc. lia. }
  pose proof (w_in_tokens _ _ _ W Hn) as Ht. unfold tokens_in in Ht. apply N.eqb_eq in Ht. exact Ht.
Qed.
Lemma tokens_of_ids : forall E d h o t, wf E d h -> In o (sx_outputs d) -> In t (tokens_of d o) -> In (fst t) (sx_tokens d).
Proof.
  intros E d h o t W Ho Ht. pose proof (w_out_wf _ _ _ W) as F. rewrite Forall_forall in F. specialize (F o Ho).
  pose proof (ow_tokens _ _ _ F) as G. rewrite Forall_forall in G. unfold tokens_of in Ht. apply in_map_iff in Ht as (x & <- & Hx).
  destruct (G x Hx) as [G1 _]. cbn [fst]. apply nth_In.
  assert (K : sx_outputs d <> []) by (intro K; rewrite K in Ho; destruct Ho).
  pose proof (outputs_tokens_in _ _ _ W K) as B. unfold blen in B. lia.
Qed.
Lemma amount_in : forall id l, amount_of id l <> 0 -> In id (map fst l).
Proof.
  intros id l. induction l as [|[i v] l IH]; intro H; [exfalso; apply H; reflexivity|]. rewrite amount_of_cons in H. cbn [map fst].
  destruct (bytes_eqb i id) eqn:E; [left; apply bytes_eqb_eq; exact E|]. right. apply IH. lia.
Qed.
Lemma output_tokens_ids : forall E d h id, wf E d h -> In id (map fst (output_tokens d)) -> In id (sx_tokens d).
Proof.
  intros E d h id W H. apply in_map_iff in H as (t & <- & H). unfold output_tokens in H. apply in_concat in H as (l & Hl & Ht).
  apply in_map_iff in Hl as (o & <- & Ho). eapply tokens_of_ids; eauto.
Qed.
(** Every id with an imbalance is among the token ids. *)
Lemma unbalanced_all : forall E d h id, wf E d h -> In id (unbalanced d) <-> balance d id <> 0%Z.
Proof.
  intros E d h id W. unfold unbalanced. rewrite filter_In, negb_true_iff, Z.eqb_neq. split; [tauto|]. intro H. split; [|exact H].
  unfold token_ids. apply distinct_in. apply in_or_app.
  destruct (N.eq_dec (amount_of id (input_tokens d)) 0) as [K|K].
  - left. eapply output_tokens_ids; [exact W|]. apply amount_in. unfold balance in H. lia.
  - right. apply amount_in. exact K.
Qed.
Lemma nodup_snoc : forall A (l : list A) x, NoDup l -> ~ In x l -> NoDup (l ++ [x]).
Proof.
  intros A l x. induction l as [|y l IH]; intros H K; [constructor; [intros []|constructor]|]. inversion H; subst. cbn. constructor.
  - intro Q. apply in_app_or in Q as [Q|[Q|[]]]; [contradiction|]. subst. apply K. left. reflexivity.
  - apply IH; [assumption|]. intro Q. apply K. right. exact Q.
Qed.
Lemma distinct_nodup : forall l, NoDup (distinct_ids l).
Proof.
  intro l. induction l as [|x l IH] using rev_ind; [constructor|]. rewrite distinct_snoc. destruct (existsb (bytes_eqb x) (distinct_ids l)) eqn:E; [exact IH|].
  apply nodup_snoc; [exact IH|]. intro K. apply existsb_in in K. congruence.
Qed.
Lemma unbalanced_nodup : forall d, NoDup (unbalanced d).
Proof. intro d. apply NoDup_filter, distinct_nodup. Qed.
Lemma tokens_held_all : forall E d h o id, wf E d h -> In o (sx_outputs d) ->
  In id (tokens_held d o) <-> amount_of id (tokens_of d o) <> 0.
Proof.
  intros E d h o id W Ho. unfold tokens_held. rewrite filter_In, negb_true_iff, N.eqb_neq. split; [tauto|]. intro H. split; [|exact H].
  apply distinct_in, in_or_app. left. apply amount_in in H. apply in_map_iff in H as (t & <- & Ht). eapply tokens_of_ids; eauto.
Qed.
Lemma tokens_held_nodup : forall d o, NoDup (tokens_held d o).
Proof. intros d o. apply NoDup_filter, distinct_nodup. Qed.

(** ** Outputs accepted without asking *)

Lemma amount_all_zero : forall id l, Forall (fun t : bytes * N => snd t = 0) l -> amount_of id l = 0.
Proof.
  intros id l H. induction H as [|[i v] l Hx Hl IH]; [reflexivity|]. rewrite amount_of_cons, IH. cbn in Hx. subst. destruct (bytes_eqb i id); reflexivity.
Qed.
Lemma in_table : forall d id, In id (sx_tokens d) -> In id (table_of d).
Proof. intros d id H. apply distinct_in. rewrite distinct_table. apply distinct_in, in_or_app. left. exact H. Qed.
Lemma fee_silent : forall E d h o, wf E d h -> In o (sx_outputs d) ->
  forallb (fun id => amount_of id (tokens_of d o) =? 0) (table_of d) = true <-> Forall (fun t => snd t = 0) (so_tokens o).
Proof.
  intros E d h o W Ho. rewrite forallb_forall. split.
  - intro H. apply Forall_forall. intros t Ht.
    assert (K : In (nth (N.to_nat (fst t)) (sx_tokens d) [], snd t) (tokens_of d o)) by (unfold tokens_of; apply in_map_iff; eauto).
    pose proof (tokens_of_ids _ _ _ _ _ W Ho K) as K'. cbn [fst] in K'. specialize (H _ (in_table _ _ K')). apply N.eqb_eq in H.
    exact (amount_zero _ _ _ H K eq_refl).
  - intros H id _. apply N.eqb_eq, amount_all_zero. unfold tokens_of. apply Forall_map. exact H.
Qed.
Lemma wallet_valid : forall p, ergo_path_validate p V_ADDRESS_E5 = true <-> wallet_path p.
Proof. intro p. rewrite validate_address_e5. unfold wallet_path. reflexivity. Qed.
Lemma last_shown_snoc : forall l o, last_shown_change (l ++ [o]) =
  if so_shown o then match so_dest o with Some (SD_CHANGE p) => Some p | _ => None end else last_shown_change l.
Proof.
  intros l o. unfold last_shown_change. rewrite filter_app. cbn [filter]. destruct (so_shown o); [|rewrite app_nil_r; reflexivity].
  rewrite rev_app_distr. reflexivity.
Qed.
Lemma last_approved_spec : forall d path l, settled d path l -> last_approved l = match last_shown_change l with Some p => p | None => [] end.
Proof.
  intros d path l. induction l as [|o l IH] using rev_ind; intro S; [reflexivity|].
  destruct (settled_last _ _ _ _ S) as [_ Sa]. specialize (IH (settled_app _ _ _ _ S)).
  rewrite last_shown_snoc. unfold last_approved in *. rewrite fold_left_app. cbn [fold_left]. unfold approved_path at 1. rewrite Sa, IH.
  destruct (so_shown o); [|reflexivity]. destruct (so_dest o) as [[?| |?]|]; reflexivity.
Qed.
Lemma last_shown_in : forall l q, last_shown_change l = Some q -> exists o, In o l /\ so_dest o = Some (SD_CHANGE q).
Proof.
  intros l q. unfold last_shown_change. destruct (rev (filter so_shown l)) as [|o r] eqn:E; [discriminate|]. intro H.
  exists o. split.
  - assert (K : In o (filter so_shown l)) by (apply in_rev; rewrite E; left; reflexivity). apply filter_In in K. apply K.
  - destruct (so_dest o) as [[?| |?]|]; try discriminate. congruence.
Qed.
Lemma equal_wallet : forall p q, wallet_path p -> is_address_path q -> bip32_path_is_equal p q = true <-> length q = 5%nat.
Proof.
  intros p q (a & c & i & -> & _) (a' & c' & i' & t & -> & _). unfold bip32_path_is_equal. rewrite andb_true_iff. split.
  - intros [H _]. apply Nat.eqb_eq in H. symmetry. exact H.
  - intro H. rewrite H. split; [reflexivity|]. cbn [length path_memory map concat le32 app firstn]. apply bytes_eqb_eq. reflexivity.
Qed.
Lemma same_account_wallet : forall p q, wallet_path p -> is_address_path q -> bip32_path_same_account p q = true.
Proof.
  intros p q (a & c & i & -> & _) (a' & c' & i' & t & -> & _). unfold bip32_path_same_account. rewrite !andb_true_iff.
  split; [split|].
  - reflexivity.
  - apply N.leb_le. unfold blen. cbn [length]. lia.
  - cbn [path_memory map concat le32 app firstn]. apply bytes_eqb_eq. reflexivity.
Qed.
Lemma silent_spec : forall E d h path pre o post, wf E d h -> sx_outputs d = pre ++ o :: post -> settled d path pre -> is_address_path path ->
  silent d path (last_approved pre) o = true <-> plain_fee o \/ automatic_change path pre o.
Proof.
  intros E d h path pre o post W Ho S Hp. assert (Hin : In o (sx_outputs d)) by (rewrite Ho; apply in_or_app; right; left; reflexivity).
  unfold silent. destruct (so_dest o) as [[t| |p]|] eqn:D.
  - split; [discriminate|]. intros [[K _]|(p & K & _)]; congruence.
  - rewrite (fee_silent _ _ _ _ W Hin). split; [intro H; left; split; assumption|]. intros [[_ K]|(p & K & _)]; [exact K|congruence].
  - rewrite andb_true_iff, orb_true_iff, wallet_valid, (last_approved_spec _ _ _ S). split.
    + intros [V H]. right. exists p. split; [exact D|]. split; [exact V|]. destruct H as [H|H].
      * right. destruct (last_shown_change pre) as [q|] eqn:L.
        2: { destruct V as (a & c & i & -> & _). discriminate H. }
        exists q. split; [reflexivity|]. apply last_shown_in in L as (o' & Ho' & Do').
        pose proof (w_out_wf _ _ _ W) as F. rewrite Forall_forall in F.
        assert (In' : In o' (sx_outputs d)) by (rewrite Ho; apply in_or_app; left; exact Ho').
        destruct (ow_change _ _ _ (F o' In') q Do') as [Vq _]. apply address_path_form in Vq. apply (equal_wallet p q V Vq). exact H.
      * left. rewrite !andb_true_iff in H. destruct H as [[_ H1] H2]. apply N.eqb_eq in H1. apply N.ltb_lt in H2. split; [exact H1|].
        destruct Hp as (a & c & i & t & -> & _ & _ & Fi). inversion Fi; subst. cbn [nth] in *. unfold u32 in H2. rewrite N.mod_small in H2; [exact H2|]. change (2^31) with 2147483648 in *. unfold two32. lia.
    + intros [[K _]|(p' & K & V & H)]; [congruence|]. assert (p' = p) by congruence. subst p'. split; [exact V|]. destruct H as [[H1 H2]|(q & L & Lq)].
      * right. rewrite !andb_true_iff. split; [split; [apply same_account_wallet; assumption|apply N.eqb_eq; exact H1]|]. apply N.ltb_lt.
        destruct Hp as (a & c & i & t & -> & _ & _ & Fi). inversion Fi; subst. cbn [nth] in *. unfold u32. rewrite N.mod_small; [exact H2|]. change (2^31) with 2147483648 in *. unfold two32. lia.
      * left. rewrite L. apply last_shown_in in L as (o' & Ho' & Do').
        pose proof (w_out_wf _ _ _ W) as F. rewrite Forall_forall in F.
        assert (In' : In o' (sx_outputs d)) by (rewrite Ho; apply in_or_app; left; exact Ho').
        destruct (ow_change _ _ _ (F o' In') q Do') as [Vq _]. apply address_path_form in Vq. apply (equal_wallet p q V Vq). exact Lq.
  - split; [discriminate|]. intros [[K _]|(p & K & _)]; congruence.
Qed.
(** When a settled output was shown. *)
Lemma shown_iff : forall E d h path pre o post, wf E d h -> sx_outputs d = pre ++ o :: post -> settled d path (sx_outputs d) -> is_address_path path ->
  so_shown o = true <-> output_complete o = true /\ ~ (plain_fee o \/ automatic_change path pre o).
Proof.
  intros E d h path pre o post W Ho S Hp. rewrite Ho in S. destruct (S pre o post eq_refl) as [-> _].
  rewrite <- (silent_spec E d h path pre o post W Ho (settled_app _ _ _ _ S) Hp).
  destruct (output_complete o), (silent d path (last_approved pre) o); cbn; split; try tauto; try discriminate; intuition discriminate.
Qed.

(** ** What was on the screen for an output *)

Lemma same_reflag : forall sh ap o, same_output (reflag sh ap o) o.
Proof. intros. do 7 (split; [reflexivity|]). reflexivity. Qed.
Lemma output_pages_same : forall E net d d' o o' pages, sx_tokens d' = sx_tokens d -> sx_inputs d' = sx_inputs d -> same_output o o' ->
  output_pages E net d o pages -> output_pages E net d' o' pages.
Proof.
  intros E net d d' o o' pages Et Ei (S1 & S2 & _ & S4 & _) (dest & first & rest & P1 & P2 & P3 & P4).
  exists dest, first, rest. split; [congruence|]. do 2 (split; [assumption|]).
  assert (T : forall x, tokens_of d' x = tokens_of d x) by (intro; apply tokens_of_same; exact Et).
  assert (T' : tokens_of d' o' = tokens_of d o) by (rewrite T; unfold tokens_of; rewrite S4; reflexivity).
  assert (I : token_ids d' = token_ids d) by (unfold token_ids, input_tokens; rewrite Et, Ei; reflexivity).
  assert (P : output_token d' o' = output_token d o) by (unfold output_token; rewrite T'; reflexivity).
  assert (Q : tokens_held d' o' = tokens_held d o) by (unfold tokens_held; rewrite T', I; reflexivity).
  rewrite P, Q, <- S1. exact P4.
Qed.
Lemma question_shown : forall tr c k f pages, shown_by (snd c) = Some (k, f, pages) -> on_screen (tr ++ [c]) = Some (fst c, k, f, pages).
Proof. intros tr c k f pages H. unfold on_screen. rewrite fold_left_app. cbn [fold_left]. unfold question_after at 1. rewrite H. reflexivity. Qed.
Lemma start_address : forall E start s sid, sign_started E start s sid -> is_address_path (start_path (start_data start)).
Proof.
  intros E start s sid H. destruct (started_data _ _ _ _ H) as [<- _]. destruct H as (p2 & data & r & f & sk & ch & pk & w & _ & _ & _ & _ & _ & V & _).
  apply address_path_form. exact V.
Qed.
Lemma outputs_approved : forall E key tr o st sig, env_ok E -> history E key (tr ++ [o]) st -> signature o = Some sig ->
  exists start body, session_of INS_SIGN tr = Some (start, body) /\
    forall before x after, sx_outputs (description body) = before ++ x :: after -> output_complete x = true ->
      (exists pages, seen_and_approved body before x pages /\ output_pages E (start_network (start_data start)) (description body) x pages) \/
      plain_fee x \/ automatic_change (start_path (start_data start)) before x.
Proof.
  intros E key tr o st sig Henv H Sg. destruct (signed _ _ _ _ _ _ Henv H Sg) as (_ & _ & _ & start & body & sid & s & h & sk & ch & O & F & _).
  exists start, body. split; [exact O|]. intros before x after Ho Hc.
  pose proof (start_address _ _ _ _ (fs_started _ _ _ _ _ _ F)) as Hp. destruct (started_data _ _ _ _ (fs_started _ _ _ _ _ _ F)) as [Ep _].
  pose proof (fs_settled _ _ _ _ _ _ F) as Se. rewrite Ep in Se.
  pose proof (shown_iff _ _ _ _ _ _ _ (fs_wf _ _ _ _ _ _ F) Ho Se Hp) as Hsh.
  destruct (so_shown x) eqn:Sx.
  2: { right. pose proof (fs_wf _ _ _ _ _ _ F) as W. assert (Se' : settled (description body) (start_path (start_data start)) before).
       { rewrite Ho in Se. eapply settled_app. exact Se. }
       apply (silent_spec _ _ _ _ _ _ _ W Ho Se' Hp). rewrite Ho in Se. destruct (Se before x after eq_refl) as [K _]. rewrite Sx, Hc in K.
       destruct (silent (description body) (start_path (start_data start)) (last_approved before) x); [reflexivity|discriminate K]. }
  left. destruct (history_prefix _ _ _ _ _ H) as [st0 H0]. destruct (session_suffix _ _ _ _ O) as (tr0 & Et & S1 & S2). subst tr.
  destruct (tracked_holds _ _ _ _ _ _ _ Henv H0 S1 S2 (fs_keeps _ _ _ _ _ _ F) _ _ _ Ho Sx)
    as (b1 & c & rest & f & pages & Eb & T2 & T3 & T4 & T5 & T6).
  exists pages. split.
  - destruct T6 as [(_ & T6 & _)|(b2 & a & b3 & -> & T7 & T8)].
    + exfalso. rewrite Ho in Se. destruct (Se before x after eq_refl) as [_ K]. congruence.
    + exists b1, c, b2, a, b3, f, (reflag true false x). do 3 (split; [assumption|]). split; [apply same_reflag|]. split; [exact Hc|]. split; [exact T7|exact T8].
  - assert (Hh : exists st1, history E key (tr0 ++ start :: b1 ++ [c]) st1).
    { rewrite Eb in H0. change (c :: rest) with ([c] ++ rest) in H0. rewrite app_comm_cons, !app_assoc in H0. apply history_prefix in H0. rewrite <- !app_assoc in H0. rewrite <- app_comm_cons in H0. exact H0. }
    destruct Hh as [st1 H1].
    assert (S3 : session_of INS_SIGN (tr0 ++ start :: b1 ++ [c]) = Some (start, b1 ++ [c])).
    { apply session_after; [exact S1|]. rewrite Eb in S2. change (c :: rest) with ([c] ++ rest) in S2. rewrite app_assoc in S2. apply Forall_app in S2. apply S2. }
    assert (Q : on_screen (tr0 ++ start :: b1 ++ [c]) = Some (fst c, U_STX_OUTPUT, f, pages)).
    { rewrite app_comm_cons, app_assoc. apply question_shown. exact T2. }
    destruct (shown_output _ _ _ _ _ _ _ Henv H1 Q) as (start' & body' & pre' & o' & S4 & S5 & S6 & S7).
    rewrite S3 in S4. injection S4 as <- <-. rewrite T3 in S5. apply snoc_inj in S5 as [_ <-].
    eapply output_pages_same; [| |apply same_reflag|exact S7]; congruence.
Qed.
(** Exactly the others were shown. *)
Lemma outputs_shown : forall E key tr o st sig, env_ok E -> history E key (tr ++ [o]) st -> signature o = Some sig ->
  exists start body, session_of INS_SIGN tr = Some (start, body) /\
    forall before x after, sx_outputs (description body) = before ++ x :: after ->
      (so_shown x = true <-> output_complete x = true /\ ~ (plain_fee x \/ automatic_change (start_path (start_data start)) before x)).
Proof.
  intros E key tr o st sig Henv H Sg. destruct (signed _ _ _ _ _ _ Henv H Sg) as (_ & _ & _ & start & body & sid & s & h & sk & ch & O & F & _).
  exists start, body. split; [exact O|]. intros before x after Ho.
  pose proof (start_address _ _ _ _ (fs_started _ _ _ _ _ _ F)) as Hp. destruct (started_data _ _ _ _ (fs_started _ _ _ _ _ _ F)) as [Ep _].
  pose proof (fs_settled _ _ _ _ _ _ F) as Se. rewrite Ep in Se. exact (shown_iff _ _ _ _ _ _ _ (fs_wf _ _ _ _ _ _ F) Ho Se Hp).
Qed.

(** ** The final screen *)

Lemma final_screen : forall E key tr st q f pages, env_ok E -> history E key tr st -> on_screen tr = Some (q, U_STX_TX, f, pages) ->
  exists start body h, session_of INS_SIGN tr = Some (start, body) /\ wf E (description body) h /\ in_range (description body) /\
    confirm_pages E (start_path (start_data start)) (description body) pages.
Proof.
  intros E key tr st q f pages Henv H Ho. destruct (shown_confirm _ _ _ _ _ _ _ Henv H Ho) as (start & body & S & P).
  destruct (paged_session _ _ _ _ _ _ _ _ Henv H Ho (or_intror eq_refl)) as (g & start' & body' & s & X1 & X2 & _ & X4 & _ & _ & _ & X8 & _).
  rewrite S in X4. injection X4 as <- <-. pose proof (good_range _ _ _ (phase_good _ _ _ _ _ X8)) as R.
  unfold sign_phase in X8. rewrite X2 in X8. destruct X8 as (_ & h & W & _). exists start, body, h. auto.
Qed.
Lemma final_amounts : forall E key tr st q f pages, env_ok E -> history E key tr st -> on_screen tr = Some (q, U_STX_TX, f, pages) ->
  exists start body amount p1 p2 p3 tokens, session_of INS_SIGN tr = Some (start, body) /\ pages = p1 :: p2 :: p3 :: tokens /\
    let d := description body in
    (Z.of_N amount = Z.of_N (total_in d) - Z.of_N (change d) - Z.of_N (fees d))%Z /\
    total_in d < 2 ^ 64 /\
    path_page "P2PK Path" (start_path (start_data start)) p1 /\
    erg_page "Transaction Amount" amount p2 /\ erg_page "Transaction Fee" (fees d) p3.
Proof.
  intros E key tr st q f pages Henv H Ho. destruct (final_screen _ _ _ _ _ _ _ Henv H Ho) as (start & body & h & S & W & (R1 & R2 & _) & (p1 & p2 & p3 & tk & -> & P1 & P2 & P3 & _)).
  exists start, body, (total_in (description body) - fees (description body) - change (description body)), p1, p2, p3, tk.
  split; [exact S|]. split; [reflexivity|]. cbv zeta. split; [lia|]. auto.
Qed.
Lemma final_tokens : forall E key tr st q f pages, env_ok E -> history E key tr st -> on_screen tr = Some (q, U_STX_TX, f, pages) ->
  exists start body ids, session_of INS_SIGN tr = Some (start, body) /\
    let d := description body in
    NoDup ids /\ (forall id, In id ids <-> balance d id <> 0%Z) /\ (forall id, (- 2 ^ 63 <= balance d id < 2 ^ 63)%Z) /\
    token_pages E (imbalance d) 1 ids (skipn 3 pages).
Proof.
  intros E key tr st q f pages Henv H Ho. destruct (final_screen _ _ _ _ _ _ _ Henv H Ho) as (start & body & h & S & W & (_ & _ & R3) & (p1 & p2 & p3 & tk & -> & _ & _ & _ & P4)).
  exists start, body, (unbalanced (description body)). split; [exact S|]. cbv zeta. split; [apply unbalanced_nodup|].
  split; [intro id; eapply unbalanced_all; exact W|]. split; [exact R3|exact P4].
Qed.

(** ** The screens of one output *)

Lemma output_screen : forall E key tr st q f pages, env_ok E -> history E key tr st -> on_screen tr = Some (q, U_STX_OUTPUT, f, pages) ->
  exists start body h before o, session_of INS_SIGN tr = Some (start, body) /\ wf E (description body) h /\
    sx_outputs (description body) = before ++ [o] /\ output_complete o = true /\
    output_pages E (start_network (start_data start)) (description body) o pages /\
    ~ (plain_fee o \/ automatic_change (start_path (start_data start)) before o).
Proof.
  intros E key tr st q f pages Henv H Ho. destruct (shown_output _ _ _ _ _ _ _ Henv H Ho) as (start & body & pre & o & S & O1 & O2 & O3).
  destruct (paged_session _ _ _ _ _ _ _ _ Henv H Ho (or_introl eq_refl)) as (g & start' & body' & s & X1 & X2 & _ & X4 & X5 & _ & _ & X8 & _).
  rewrite S in X4. injection X4 as <- <-. unfold sign_phase in X8. rewrite X2 in X8. destruct X8 as (_ & h & W & T & Wt).
  exists start, body, h, pre, o. do 5 (split; [assumption|]).
  destruct Wt as (pre' & o' & Y1 & Y2 & _ & _ & _ & Y6). rewrite O1 in Y1. apply snoc_inj in Y1 as [<- <-].
  destruct (started_data _ _ _ _ X5) as [Ep _]. rewrite Ep in *. intro K.
  pose proof (start_address _ _ _ _ X5) as Hp. apply (silent_spec _ _ _ _ _ _ [] W O1 Y2 Hp) in K. congruence.
Qed.
Lemma output_tokens_shown : forall E key tr st q f pages, env_ok E -> history E key tr st -> on_screen tr = Some (q, U_STX_OUTPUT, f, pages) ->
  exists start body before o dest p1 rest, session_of INS_SIGN tr = Some (start, body) /\
    let d := description body in
    sx_outputs d = before ++ [o] /\ output_complete o = true /\ so_dest o = Some dest /\ pages = p1 :: rest /\
    destination_page E (start_network (start_data start)) dest p1 /\
    match dest with
    | SD_CHANGE _ => rest = []
    | _ => exists p2 tokens ids, rest = p2 :: tokens /\ erg_page "Output Value" (so_value o) p2 /\
             NoDup ids /\ (forall id, In id ids <-> exists v, In (id, v) (tokens_of d o) /\ v <> 0) /\
             token_pages E (output_token d o) 1 ids tokens
    end.
Proof.
  intros E key tr st q f pages Henv H Ho. destruct (output_screen _ _ _ _ _ _ _ Henv H Ho) as (start & body & h & before & o & S & W & O1 & O2 & (dest & p1 & rest & P1 & P2 & P3 & P4) & _).
  exists start, body, before, o, dest, p1, rest. split; [exact S|]. cbv zeta. do 5 (split; [assumption|]).
  assert (Hin : In o (sx_outputs (description body))) by (rewrite O1; apply in_or_app; right; left; reflexivity).
  assert (Ids : forall id, In id (tokens_held (description body) o) <-> exists v, In (id, v) (tokens_of (description body) o) /\ v <> 0).
  { intro id. rewrite (tokens_held_all _ _ _ _ _ W Hin). split.
    - intro K. generalize (tokens_of (description body) o) K. clear. intros l. induction l as [|[i v] l IH]; intro K; [exfalso; apply K; reflexivity|].
      rewrite amount_of_cons in K. destruct (bytes_eqb i id) eqn:E.
      + apply bytes_eqb_eq in E. subst i. destruct (N.eq_dec v 0) as [->|Hv]; [|exists v; split; [left; reflexivity|exact Hv]].
        destruct (IH ltac:(lia)) as (w & Hw & Hw'). exists w. split; [right; exact Hw|exact Hw'].
      + destruct (IH ltac:(lia)) as (w & Hw & Hw'). exists w. split; [right; exact Hw|exact Hw'].
    - intros (v & Hv & Hv') K. apply Hv'. exact (amount_zero _ _ _ K Hv eq_refl). }
  destruct dest as [t| |p].
  - destruct P4 as (p2 & tokens & -> & Q1 & Q2). exists p2, tokens, (tokens_held (description body) o). split; [reflexivity|]. split; [exact Q1|]. split; [apply tokens_held_nodup|]. split; [exact Ids|exact Q2].
  - destruct P4 as (p2 & tokens & -> & Q1 & Q2). exists p2, tokens, (tokens_held (description body) o). split; [reflexivity|]. split; [exact Q1|]. split; [apply tokens_held_nodup|]. split; [exact Ids|exact Q2].
  - exact P4.
Qed.
Lemma amounts_single : forall E key tr st c, env_ok E -> history E key (tr ++ [c]) st -> continuation INS_SIGN c <> None ->
  exists start body, session_of INS_SIGN (tr ++ [c]) = Some (start, body ++ [c]) /\
    let d := description (body ++ [c]) in
    Forall (fun o => no_repeat (tokens_of d o) /\ forall id, amount_of id (tokens_of d o) < 2 ^ 64) (sx_outputs d).
Proof.
  intros E key tr st c Henv H Hc. destruct (continued_ctx _ _ _ _ _ Henv H Hc) as [g X].
  destruct (accepted_range _ _ _ _ _ Henv H Hc) as (start & body & S & _ & R). exists start, body. split; [exact S|]. cbv zeta.
  destruct (ctx_good _ _ _ _ _ Henv H X) as (start' & body' & S' & [G]). rewrite S in S'. injection S' as <- <-.
  apply Forall_forall. intros o Ho. rewrite Forall_forall in R. split; [exact (R o Ho)|]. intro id.
  destruct G as [G|(h & W & _)]; [rewrite G in Ho; destruct Ho|].
  apply amount_once; [apply once_spec; exact (R o Ho)|].
  pose proof (w_out_wf _ _ _ W) as F. rewrite Forall_forall in F. pose proof (ow_tokens _ _ _ (F o Ho)) as K. unfold tokens_of. apply Forall_map.
  eapply Forall_impl; [|exact K]. intros t [_ Ht]. exact Ht.
Qed.

(** The transaction signed is the one the screens were about. *)
Lemma shown_is_signed : forall E key tr o st sig, env_ok E -> history E key (tr ++ [o]) st -> signature o = Some sig ->
  exists start body, session_of INS_SIGN tr = Some (start, body) /\
    signed_message E start (streamed_bytes E (description body)) sig /\
    (Forall (fun o => output_complete o = true) (sx_outputs (description body)) ->
     streamed_bytes E (description body) = bytes_to_sign E (description body)) /\
    forall before x after, sx_outputs (description body) = before ++ x :: after -> so_shown x = true ->
      exists pages, seen_and_approved body before x pages /\ output_pages E (start_network (start_data start)) (description body) x pages.
Proof.
  intros E key tr o st sig Henv H Sg. destruct (signed_bytes _ _ _ _ _ _ Henv H Sg) as (start & body & O & M & B).
  destruct (outputs_approved _ _ _ _ _ _ Henv H Sg) as (s1 & b1 & O1 & A). destruct (outputs_shown _ _ _ _ _ _ Henv H Sg) as (s2 & b2 & O2 & C).
  rewrite O in O1, O2. injection O1 as <- <-. injection O2 as <- <-.
  exists start, body. do 3 (split; [assumption|]). intros before x after Ho Hs. apply (C _ _ _ Ho) in Hs as [Hc Hn].
  destruct (A _ _ _ Ho Hc) as [K|K]; [exact K|contradiction].
Qed.
Lemma change_pages : forall E key tr st q f pages, env_ok E -> history E key tr st -> on_screen tr = Some (q, U_STX_OUTPUT, f, pages) ->
  forall start body before o p, session_of INS_SIGN tr = Some (start, body) -> sx_outputs (description body) = before ++ [o] ->
  so_dest o = Some (SD_CHANGE p) -> exists page, pages = [page] /\ path_page "Change" p page.
Proof.
  intros E key tr st q f pages Henv H Ho start body before o p S Hd D.
  destruct (output_tokens_shown _ _ _ _ _ _ _ Henv H Ho) as (start' & body' & before' & o' & dest & p1 & rest & S' & O1 & _ & O3 & -> & P & R).
  rewrite S in S'. injection S' as <- <-. rewrite Hd in O1. apply snoc_inj in O1 as [_ <-]. rewrite D in O3. injection O3 as <-.
  subst rest. exists p1. split; [reflexivity|exact P].
Qed.
