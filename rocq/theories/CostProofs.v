(** What a signed transaction costs, from the theorems on bytes, screens and attestations. *)
From Coq Require Import String.
From Verif Require Import Lib Env UiFlow App SpecVlq SpecText SpecTree SpecTrace SpecTx SpecAmounts SpecScreen SpecPages SpecRequest SpecSign SpecRules SpecScript SpecNode SpecCost
  TreeProofs SignInv TraceAttest SessionProofs SignedProofs RulesProofs OutputRules FrameRules RequestProofs ScriptProofs NodeProofs.

#[local] Arguments N.eqb : simpl never.
#[local] Arguments N.ltb : simpl never.
#[local] Arguments N.leb : simpl never.
#[local] Arguments N.add : simpl never.
#[local] Arguments blen : simpl never.

(** ** Roles *)

Definition role_of (o : s_output) : role :=
  match so_dest o with Some (SD_CHANGE p) => TO_WALLET p | Some SD_FEE => TO_MINERS | _ => TO_OTHERS end.
Lemma paid_as : forall E d f g, (forall o, f (role_of o) = g o) ->
  paid f (map role_of (sx_outputs d)) (node_tx E d) = total (map so_value (filter g (sx_outputs d))).
Proof.
  intros E d f g H. unfold paid, node_tx. cbn [nt_outputs]. induction (sx_outputs d) as [|o l IH]; [reflexivity|].
  cbn [map combine filter fst]. rewrite H. destruct (g o); [|exact IH]. cbn [map snd total fold_right]. change (fold_right N.add 0) with total. rewrite IH. reflexivity.
Qed.
Lemma three_ways : forall l, total (map so_value l) =
  total (map so_value (filter is_change l)) + total (map so_value (filter is_fee l)) + total (map so_value (filter (fun o => to_others (role_of o)) l)).
Proof.
  induction l as [|o l IH]; [reflexivity|]. cbn [map filter]. unfold is_change at 1, is_fee at 1, to_others at 1, role_of at 1.
  destruct (so_dest o) as [[t| |p]|]; cbn [map total fold_right]; change (fold_right N.add 0) with total; rewrite IH; lia.
Qed.
Lemma held_as : forall E d o, held (node_tx E d) (node_output E o) = tokens_of d o.
Proof. reflexivity. Qed.

(** ** Boxes *)

Lemma same_value : forall E key tr a b, attested_box E key tr a -> no_collision E (box_bytes a) (n_box_bytes b) ->
  box_id E a = e_blake E (n_box_bytes b) -> sb_value a = nb_value b.
Proof. intros E key tr a b _ C H. apply C in H. unfold box_bytes, n_box_bytes in H. apply vlq_split in H. tauto. Qed.
Lemma same_tokens : forall l1 l2 x y, Forall (fun t : bytes * N => length (fst t) = 32%nat) l1 -> Forall (fun t : bytes * N => length (fst t) = 32%nat) l2 -> length l1 = length l2 ->
  concat (map (fun t => fst t ++ vlq (snd t)) l1) ++ x = concat (map (fun t => fst t ++ vlq (snd t)) l2) ++ y -> l1 = l2 /\ x = y.
Proof.
  intros l1. induction l1 as [|[i v] l1 IH]; intros [|[j w] l2] x y F1 F2 L E; try discriminate L; [split; [reflexivity|exact E]|].
  cbn [map concat fst snd] in E. rewrite <- !app_assoc in E. inversion F1 as [|? ? T1 F1']; subst. inversion F2 as [|? ? T2 F2']; subst. cbn [fst] in *.
  apply app_inj_length in E as [-> E]; [|congruence]. apply vlq_split in E as [-> E]. apply IH in E as [-> ->]; auto.
Qed.
Lemma ledger_tokens : forall E key tr st a b G, env_ok E -> history E key tr st -> attested_box E key tr a -> no_collision E (box_bytes a) (n_box_bytes b) ->
  readable_grammar G -> readable_box G a -> readable_on_ledger G b -> box_id E a = e_blake E (n_box_bytes b) -> sb_tokens a = nb_tokens b.
Proof.
  intros E key tr st a b G Henv H A C (Gs & Gr & _) ((t & T & St) & R) (Sb & Rb & Tb) Hi. apply C in Hi.
  destruct (attested_wf _ _ _ _ _ Henv H A) as [W _]. unfold box_bytes, n_box_bytes in Hi. rewrite T in Hi.
  apply vlq_split in Hi as [_ Hi]. apply (word_split _ Gs) in Hi as [_ Hi]; auto. apply vlq_split in Hi as [_ Hi].
  cbn [List.app] in Hi. assert (B : blen (sb_tokens a) = blen (nb_tokens b)) by congruence. apply (f_equal (@tl N)) in Hi. cbn [tl] in Hi.
  apply same_tokens in Hi; [tauto| |exact Tb|apply blen_length; exact B].
  eapply Forall_impl; [|exact (sw_tokens _ W)]. intros x [K _]. exact K.
Qed.

(** ** The outputs *)

Lemma confirmed_at : forall body before x pages, seen_and_approved body before x pages -> confirmed body (length before) pages.
Proof.
  intros body before x pages (b1 & c & b2 & a & b3 & f & o' & B & S & O & _ & _ & F & A). exists b1, c, b2, a, b3, f.
  split; [exact B|]. split; [exact S|]. split; [rewrite O, app_length; cbn [length]; lia|]. split; assumption.
Qed.
Lemma pages_tell : forall E network d h o pages dest, wf E d h -> In o (sx_outputs d) -> output_pages E network d o pages -> so_dest o = Some dest ->
  (forall p, dest <> SD_CHANGE p) -> tells E network (node_tx E d) (node_output E o) dest pages.
Proof.
  intros E network d h o pages dest W Hin (dest' & first & rest & D & -> & P & R) D' Hn. assert (dest' = dest) by congruence. subst dest'.
  assert (X : exists second tokens, rest = second :: tokens /\ erg_page "Output Value" (so_value o) second /\ token_pages E (output_token d o) 1 (tokens_held d o) tokens)
    by (destruct dest as [t| |p]; [exact R|exact R|exfalso; exact (Hn p eq_refl)]).
  destruct X as (second & tokens & -> & V & T). exists first, second, tokens, (tokens_held d o). split; [reflexivity|]. split; [exact P|]. split; [exact V|].
  split; [apply tokens_held_nodup|]. split; [intro id; rewrite held_as; eapply tokens_held_all; eassumption|]. exact T.
Qed.
Lemma change_key : forall E p, env_ok E -> change_ok E p -> is_address_path p /\ exists pk chain, key_at E p pk chain /\ is_p2pk_tree pk (dest_tree E (SD_CHANGE p)).
Proof.
  intros E p Henv (V & _ & sk & c & w & D & M). split; [apply address_path_form; exact V|]. exists (compressed w), c.
  split; [exists sk, w; auto|]. unfold dest_tree, public_key. rewrite D, M. split; [reflexivity|].
  destruct (ok_mulG_len _ Henv _ _ M) as [L _]. split; [|unfold compressed; cbn [hd]; destruct (N.odd _); auto].
  unfold compressed. cbn [length]. rewrite firstn_length. destruct w; [discriminate L|]. cbn [tl length] in *. lia.
Qed.

Lemma session_same : forall tr (s1 s2 : obs) b1 b2, session_of INS_SIGN tr = Some (s1, b1) -> session_of INS_SIGN tr = Some (s2, b2) -> s1 = s2 /\ b1 = b2.
Proof. intros. split; congruence. Qed.
Ltac same_session :=
  match goal with A : session_of INS_SIGN ?tr = Some (?s1, ?b1), B : session_of INS_SIGN ?tr = Some (?s2, ?b2) |- _ =>
    destruct (session_same _ _ _ _ _ A B) as [<- <-]; clear B end.

Lemma values_spent : forall E key tr bs (ins : list s_input), collision_free E key tr bs ->
  (forall i, In i ins -> exists b, attested_box E key tr b /\ si_id i = box_id E b /\ si_value i = sb_value b) ->
  Forall2 (fun (i : bytes * bytes) b => fst i = e_blake E (n_box_bytes b)) (map (fun i => (si_id i, if si_ext_len i =? 0 then [0] else si_ext i)) ins) bs ->
  total (map nb_value bs) = total (map si_value ins).
Proof.
  intros E key tr bs ins. revert bs. induction ins as [|i ins IH]; intros bs C A F; inversion F as [|? b ? bs' Hb F']; subst; [reflexivity|].
  cbn [map total fold_right]. change (fold_right N.add 0) with total. f_equal.
  - destruct (A i (or_introl eq_refl)) as (a & A1 & A2 & A3). rewrite A3. symmetry. eapply same_value; [exact A1|apply C; [exact A1|left; reflexivity]|].
    cbn [fst] in Hb. congruence.
  - apply IH; [|intros j Hj; apply A; right; exact Hj|exact F']. intros a x Ha Hx. apply C; [exact Ha|right; exact Hx].
Qed.

Lemma cost_holds : forall E key tr o st sig G, env_ok E -> history E key (tr ++ [o]) st -> signature o = Some sig -> no_forgery tr -> readable_grammar G ->
  exists start body msg, session_of INS_SIGN tr = Some (start, body) /\ signed_message E start msg sig /\
    (Forall (fun x => output_complete x = true) (sx_outputs (description body)) -> readable G (node_tx E (description body)) ->
     forall t bs, readable G t -> n_bytes t = msg -> spends E t bs -> collision_free E key tr bs ->
     exists amount fee roles, cost E tr (start_network (start_data start)) body t bs amount fee roles).
Proof.
  intros E key tr o st sig G Henv H S Nf Gr.
  destruct (signed _ _ _ _ _ _ Henv H S) as (_ & (q & f & pages & Q) & _ & start & body & sid & s & h & sk & ch & O & F & _).
  destruct (signed_only _ _ _ _ _ _ _ Henv H S Gr) as (start1 & body1 & msg & O1 & M & U). same_session.
  destruct (signed_values _ _ _ _ _ _ Henv H S Nf) as (start2 & body2 & O2 & V). same_session.
  destruct (outputs_approved _ _ _ _ _ _ Henv H S) as (start3 & body3 & O3 & Ap). same_session.
  pose proof (history_prefix _ _ _ _ _ H) as [st0 H0].
  destruct (final_amounts _ _ _ _ _ _ _ Henv H0 Q) as (start4 & body4 & amount & p1 & p2 & p3 & tokens & O4 & -> & Fa). same_session.
  cbv zeta in Fa. destruct Fa as (A1 & _ & _ & A3 & A4).
  exists start, body, msg. split; [exact O|]. split; [exact M|]. intros Co Rd t bs Rt Nb Sp Cf.
  destruct (U Co Rd) as [_ U2]. rewrite (U2 t Rt Nb) in *. clear t Rt Nb U U2.
  set (d := description body) in *. pose proof (fs_wf _ _ _ _ _ _ F) as W. fold d in W.
  assert (Tot : total (map nb_value bs) = total_in d).
  { eapply values_spent; [exact Cf| |exact Sp]. intros i Hi. destruct (V i Hi) as (b & B1 & B2 & B3 & _). eauto. }
  exists amount, (fees d), (map role_of (sx_outputs d)). constructor.
  - exists q, f, p1, p2, p3, tokens. auto.
  - rewrite (paid_as _ _ _ is_change) by (intro x; unfold role_of, is_change, to_wallet; destruct (so_dest x) as [[| |]|]; reflexivity).
    change (total (map so_value (filter is_change (sx_outputs d)))) with (change d). lia.
  - rewrite (paid_as _ _ _ is_fee) by (intro x; unfold role_of, is_fee, to_miners; destruct (so_dest x) as [[| |]|]; reflexivity). reflexivity.
  - intro K. rewrite (paid_as _ _ _ (fun x => to_others (role_of x))) by reflexivity. rewrite Tot in K.
    assert (X : total (map no_value (nt_outputs (node_tx E d))) = total (map so_value (sx_outputs d))) by (unfold node_tx; cbn [nt_outputs]; rewrite map_map; reflexivity).
    rewrite X, three_ways in K. fold (change d) (fees d) in K. lia.
  - unfold node_tx. cbn [nt_outputs]. rewrite !map_length. reflexivity.
  - intros k x r Hx Hr. unfold node_tx in Hx. cbn [nt_outputs] in Hx. rewrite nth_error_map in Hx, Hr.
    destruct (nth_error (sx_outputs d) k) as [y|] eqn:Y; [|discriminate]. cbn [option_map] in Hx, Hr.
    assert (x = node_output E y) by congruence. assert (r = role_of y) by congruence. subst x r. clear Hx Hr.
    pose proof (nth_error_In _ _ Y) as Hin. apply nth_error_split in Y as (before & after & Ho & Lb).
    pose proof (proj1 (Forall_forall _ _) (w_out_wf _ _ _ W) y Hin) as Wo. pose proof (proj1 (Forall_forall _ _) Co y Hin) as Hc.
    specialize (Ap before y after Ho Hc). unfold plays, role_of. destruct (so_dest y) as [[t| |p]|] eqn:D.
    + assert (Ns : no_script (node_output E y) = t) by (unfold node_output; rewrite D; reflexivity). rewrite Ns.
      destruct Ap as [(pages & P1 & P2)|[[P _]|(p & P & _)]]; try congruence. exists pages. split; [rewrite <- Lb; eapply confirmed_at; exact P1|].
      eapply pages_tell; try eassumption. discriminate.
    + split; [unfold node_output; rewrite D; reflexivity|]. destruct Ap as [(pages & P1 & P2)|[[_ P]|(p & P & _)]]; try congruence.
      * right. exists pages. split; [rewrite <- Lb; eapply confirmed_at; exact P1|]. eapply pages_tell; try eassumption. discriminate.
      * left. exact P.
    + unfold node_output. cbn [no_script]. rewrite D. apply change_key; [exact Henv|]. apply (ow_change _ _ _ Wo). exact D.
    + exfalso. unfold output_complete, tree_complete in Hc. rewrite D in Hc. discriminate Hc.
Qed.

(** ** The tokens *)

Lemma token_pages_impl : forall E (P R : bytes -> text -> page -> Prop) k ids pages, (forall id title pg, P id title pg -> R id title pg) ->
  token_pages E P k ids pages -> token_pages E R k ids pages.
Proof. intros E P R k ids pages H T. induction T; [apply token_pages_nil|eapply token_pages_cons; eauto]. Qed.
Lemma amounts_spent : forall E key tr st bs G (ins : list s_input), env_ok E -> history E key tr st -> collision_free E key tr bs -> readable_grammar G ->
  attested_readable E key tr G -> Forall (readable_on_ledger G) bs ->
  (forall i, In i ins -> exists b, attested_box E key tr b /\ si_id i = box_id E b /\ concat (si_frames i) = sb_tokens b) ->
  Forall2 (fun (i : bytes * bytes) b => fst i = e_blake E (n_box_bytes b)) (map (fun i => (si_id i, if si_ext_len i =? 0 then [0] else si_ext i)) ins) bs ->
  concat (map nb_tokens bs) = concat (map (fun i => concat (si_frames i)) ins).
Proof.
  intros E key tr st bs G ins Henv H. revert bs. induction ins as [|i ins IH]; intros bs C Gr Ar Rb A F; inversion F as [|? b ? bs' Hb F']; subst; [reflexivity|].
  inversion Rb as [|? ? R1 R2]; subst. cbn [map concat]. f_equal.
  - destruct (A i (or_introl eq_refl)) as (a & A1 & A2 & A3). rewrite A3. symmetry. destruct (Ar a A1) as [Ra _].
    eapply ledger_tokens; try eassumption; [apply C; [exact A1|left; reflexivity]|]. cbn [fst] in Hb. congruence.
  - apply IH; try assumption; [|intros j Hj; apply A; right; exact Hj]. intros a x Ha Hx. apply C; [exact Ha|right; exact Hx].
Qed.
Lemma unambiguous : forall E key tr st G, env_ok E -> history E key tr st -> readable_grammar G -> attested_readable E key tr G -> ids_unambiguous E key tr.
Proof.
  intros E key tr st G Henv H Gr Ar b b' A A' Hi. destruct (Ar b A) as [R C], (Ar b' A') as [R' _]. specialize (C b' A').
  destruct (box_only _ _ _ _ _ _ _ _ _ _ Henv H A H A' C Gr R R' Hi) as (_ & _ & _ & _ & _ & T & _). exact T.
Qed.
Lemma tokens_hold : forall E key tr o st sig G, env_ok E -> history E key (tr ++ [o]) st -> signature o = Some sig -> no_forgery tr -> readable_grammar G ->
  attested_readable E key tr G ->
  exists start body msg, session_of INS_SIGN tr = Some (start, body) /\ signed_message E start msg sig /\
    (Forall (fun x => output_complete x = true) (sx_outputs (description body)) -> readable G (node_tx E (description body)) ->
     forall t bs, readable G t -> n_bytes t = msg -> spends E t bs -> collision_free E key tr bs -> Forall (readable_on_ledger G) bs ->
     tokens_told E tr t bs).
Proof.
  intros E key tr o st sig G Henv H S Nf Gr Ar.
  destruct (signed _ _ _ _ _ _ Henv H S) as (_ & (q & f & pages & Q) & _ & start & body & sid & s & h & sk & ch & O & F & _).
  destruct (signed_only _ _ _ _ _ _ _ Henv H S Gr) as (start1 & body1 & msg & O1 & M & U). same_session.
  destruct (signed_values _ _ _ _ _ _ Henv H S Nf) as (start2 & body2 & O2 & V). same_session.
  pose proof (history_prefix _ _ _ _ _ H) as [st0 H0].
  destruct (final_amounts _ _ _ _ _ _ _ Henv H0 Q) as (start4 & body4 & amount & p1 & p2 & p3 & tokens & O4 & -> & _). same_session.
  destruct (final_tokens _ _ _ _ _ _ _ Henv H0 Q) as (start5 & body5 & ids & O5 & T). same_session. cbv zeta in T. destruct T as (T1 & T2 & _ & T3). cbn [skipn] in T3.
  exists start, body, msg. split; [exact O|]. split; [exact M|]. intros Co Rd t bs Rt Nb Sp Cf Rl.
  destruct (U Co Rd) as [_ U2]. rewrite (U2 t Rt Nb) in *. clear t Rt Nb U U2.
  set (d := description body) in *.
  assert (Si : forall id, spent bs id = amount_of id (input_tokens d)).
  { intro id. unfold spent, input_tokens. f_equal. eapply amounts_spent; try eassumption. intros i Hi. destruct (V i Hi) as (b & B1 & B2 & _ & B4).
    exists b. split; [exact B1|]. split; [exact B2|]. apply B4. eapply unambiguous; eassumption. }
  assert (Cr : forall id, created (node_tx E d) id = amount_of id (output_tokens d)).
  { intro id. unfold created, output_tokens. do 2 f_equal. unfold node_tx at 2. cbn [nt_outputs]. rewrite map_map. reflexivity. }
  assert (Ba : forall id, balance d id = (Z.of_N (spent bs id) - Z.of_N (created (node_tx E d) id))%Z) by (intro id; unfold balance; rewrite Si, Cr; reflexivity).
  exists q, f, p1, p2, p3, tokens, ids. split; [exact Q|]. split; [exact T1|]. split; [intro id; rewrite T2, Ba; lia|].
  eapply token_pages_impl; [|exact T3]. intros id title pg K. unfold imbalance in K. rewrite Ba in K. unfold difference.
  set (a := spent bs id) in *. set (b := created (node_tx E d) id) in *. clearbody a b.
  destruct (N.eqb_spec b (a + 2 ^ 63)) as [Z|Z].
  - destruct (Z.eqb_spec (Z.of_N a - Z.of_N b) (- 2 ^ 63)); [exact K|lia].
  - destruct (Z.eqb_spec (Z.of_N a - Z.of_N b) (- 2 ^ 63)) as [Y|Y]; [lia|]. destruct K as (n & D & ->).
    destruct (N.ltb_spec a b), (Z.ltb_spec (Z.of_N a - Z.of_N b) 0); try lia; exists n; (split; [|reflexivity]).
    + replace (b - a) with (Z.abs_N (Z.of_N a - Z.of_N b)) by lia. exact D.
    + replace (a - b) with (Z.abs_N (Z.of_N a - Z.of_N b)) by lia. exact D.
Qed.
