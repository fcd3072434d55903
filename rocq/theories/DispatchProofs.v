(** Proofs of the dispatcher properties: one answer, refusals, busy, sizes, flows, pages. *)
From Coq Require Import String.
From Verif Require Import Lib Env Bip32 Base58 Address ErgoTree Schnorr TxTable TxBox TxFull Amounts OutputInfo InputFrame UiFlow P2pkOp App
  SpecTree SpecTrace SpecTx SpecApdu SpecAmounts SpecScreen SpecPages SpecDispatch TreeProofs BoxProofs Moves SignInv SignRest SignShow
  TraceSign TraceAttest AttestProofs TraceScreen PageProofs TraceShow TraceUb.

#[local] Arguments N.eqb : simpl never.
#[local] Arguments N.ltb : simpl never.
#[local] Arguments N.leb : simpl never.
#[local] Arguments N.sub : simpl never.
#[local] Arguments blen : simpl never.
#[local] Arguments num : simpl never.
#[local] Arguments slice : simpl never.

(** ** Dispatch *)

Lemma wrong_class : forall E st cla ins p1 p2 data r, cla <> CLA ->
  step E st (Apdu cla ins p1 p2 data r) = (st, [OResp [] SW_CLA_NOT_SUPPORTED]).
Proof. intros E st cla ins p1 p2 data r H. cbn [step]. unfold apdu_dispatcher. apply N.eqb_neq in H. unfold CLA in H. rewrite H. reflexivity. Qed.
Lemma step_ins : forall E st ins p1 p2 data r, step E st (Apdu CLA ins p1 p2 data r) =
  if ins =? 1 then if negb (p1 =? 0) || negb (p2 =? 0) then (st, [resp SW_WRONG_P1P2]) else (st, [OResp APP_VERSION SW_OK])
  else if ins =? 2 then if negb (p1 =? 0) || negb (p2 =? 0) then (st, [resp SW_WRONG_P1P2]) else (st, [OResp APP_NAME SW_OK])
  else if ins =? 0x10 then if (p1 =? 0) || (2 <? p1) || (0 <? p2) then (st, [resp SW_WRONG_P1P2]) else handler_epk E st data (p1 =? 2)
  else if ins =? 0x11 then if (p1 =? 0) || (2 <? p1) || (p2 =? 0) || (2 <? p2) then (st, [resp SW_WRONG_P1P2]) else handler_da E st data (p1 =? 2) (p2 =? 2)
  else if ins =? 0x20 then if (p1 =? 0) || (p2 =? 0) then (st, [resp SW_WRONG_P1P2]) else handler_attest E st data p1 p2 r
  else if ins =? 0x21 then if (p1 =? 0) || (p2 =? 0) then (st, [resp SW_WRONG_P1P2]) else handler_sign E st data p1 p2 r
  else (st, [resp SW_INS_NOT_SUPPORTED]).
Proof. intros. cbn [step]. unfold apdu_dispatcher. change (negb (CLA =? 0xE0)) with false. cbv iota. apply match_ins. Qed.
Lemma known_cases : forall ins, known_ins ins = (ins =? 1) || ((ins =? 2) || ((ins =? 0x10) || ((ins =? 0x11) || ((ins =? 0x20) || ((ins =? 0x21) || false))))).
Proof. reflexivity. Qed.
Lemma interactive_cases : forall ins, interactive ins = ((ins =? 0x10) || ((ins =? 0x11) || ((ins =? 0x20) || ((ins =? 0x21) || false)))).
Proof. reflexivity. Qed.
Lemma unknown_instruction : forall E st ins p1 p2 data r, known_ins ins = false ->
  step E st (Apdu CLA ins p1 p2 data r) = (st, [OResp [] SW_INS_NOT_SUPPORTED]).
Proof.
  intros E st ins p1 p2 data r H. rewrite step_ins. rewrite known_cases in H. rewrite !orb_false_iff in H.
  destruct H as (-> & -> & -> & -> & -> & -> & _). reflexivity.
Qed.
Lemma range2 : forall p, (p =? 0) || (2 <? p) = negb (one_or_two p).
Proof.
  intros p. unfold one_or_two. destruct (p =? 0) eqn:A, (2 <? p) eqn:B, (p =? 1) eqn:C, (p =? 2) eqn:D; try reflexivity;
    rewrite ?N.eqb_eq, ?N.eqb_neq, ?N.ltb_lt, ?N.ltb_ge in *; lia.
Qed.
Lemma range0 : forall p, (0 <? p) = negb (p =? 0).
Proof. intros p. destruct (0 <? p) eqn:A, (p =? 0) eqn:B; try reflexivity; rewrite ?N.eqb_eq, ?N.eqb_neq, ?N.ltb_lt, ?N.ltb_ge in *; lia. Qed.
(** The dispatcher, by the parameter rule of the documentation. *)
Lemma step_params : forall E st ins p1 p2 data r, known_ins ins = true -> step E st (Apdu CLA ins p1 p2 data r) =
  if negb (params_ok ins p1 p2) then (st, [OResp [] SW_WRONG_P1P2])
  else if ins =? 1 then (st, [OResp [0; 0; 5; 0] SW_OK])
  else if ins =? 2 then (st, [OResp (str "Ergo") SW_OK])
  else if ins =? 0x10 then handler_epk E st data (p1 =? 2)
  else if ins =? 0x11 then handler_da E st data (p1 =? 2) (p2 =? 2)
  else if ins =? 0x20 then handler_attest E st data p1 p2 r
  else handler_sign E st data p1 p2 r.
Proof.
  intros E st ins p1 p2 data r H. rewrite step_ins. rewrite known_cases in H. unfold params_ok.
  change INS_VERSION with 1. change INS_NAME with 2. change INS_KEY with 0x10. change INS_ADDRESS with 0x11.
  destruct (ins =? 1) eqn:E1; [cbn [orb]; destruct (p1 =? 0), (p2 =? 0); reflexivity|].
  destruct (ins =? 2) eqn:E2; [cbn [orb]; destruct (p1 =? 0), (p2 =? 0); reflexivity|]. cbn [orb].
  destruct (ins =? 0x10) eqn:E3.
  { rewrite range2, range0. destruct (one_or_two p1), (p2 =? 0); reflexivity. }
  destruct (ins =? 0x11) eqn:E4.
  { rewrite <- orb_assoc, !range2. destruct (one_or_two p1), (one_or_two p2); reflexivity. }
  destruct (ins =? 0x20) eqn:E5; [destruct (p1 =? 0), (p2 =? 0); reflexivity|].
  destruct (ins =? 0x21) eqn:E6; [destruct (p1 =? 0), (p2 =? 0); reflexivity|]. discriminate.
Qed.
Lemma wrong_params : forall E st ins p1 p2 data r, known_ins ins = true -> params_ok ins p1 p2 = false ->
  step E st (Apdu CLA ins p1 p2 data r) = (st, [OResp [] SW_WRONG_P1P2]).
Proof. intros E st ins p1 p2 data r H K. rewrite step_params, K by assumption. reflexivity. Qed.

Lemma at_most_one : forall E st e st' outs, move E st e st' outs -> (length outs <= 1)%nat.
Proof. intros E st e st' outs M. destruct M; cbn [length]; auto. Qed.
Lemma one_answer : forall E key tr st cla ins p1 p2 data r outs, history E key (tr ++ [(Apdu cla ins p1 p2 data r, outs)]) st ->
  exists o, outs = [o].
Proof.
  intros E key tr st cla ins p1 p2 data r outs H. apply history_last in H as (st0 & _ & _ & _ & _ & M & _).
  remember (Apdu cla ins p1 p2 data r) as e eqn:Ee.
  destruct M; try (eexists; reflexivity); try discriminate Ee.
  - subst e. exfalso. eapply H. reflexivity.
  - destruct H0 as [[-> _]|[-> _]]; discriminate.
Qed.
Lemma resp_sw : forall s b s', resp s = OResp b s' -> b = [] /\ s' = s.
Proof. intros s b s' H. destruct s; cbn in H; inversion H; auto. Qed.
Lemma handled : forall E key tr st ins p1 p2 data r outs, history E key (tr ++ [(Apdu CLA ins p1 p2 data r, outs)]) st ->
  known_ins ins = true -> params_ok ins p1 p2 = true ->
  (forall b s, In (OResp b s) outs -> s <> SW_CLA_NOT_SUPPORTED /\ s <> SW_INS_NOT_SUPPORTED /\
     (s = SW_WRONG_P1P2 -> (ins = INS_ATTEST \/ ins = INS_SIGN) /\ p1 = 1 /\ p2 <> 1 /\ p2 <> 2)) /\
  (forall k f pages, In (OShow k f pages) outs -> In k (screens_of ins)).
Proof.
  intros E key tr st ins p1 p2 data r outs H Hk Hp. apply history_last in H as (st0 & _ & _ & _ & _ & M & _).
  assert (O2 : forall p, one_or_two p = false -> p <> 1 /\ p <> 2).
  { intros p K. unfold one_or_two in K. apply orb_false_iff in K as [K1 K2]. apply N.eqb_neq in K1, K2. auto. }
  assert (Rs : forall s, handler_error s = true -> s <> SW_CLA_NOT_SUPPORTED /\ s <> SW_INS_NOT_SUPPORTED /\ s <> SW_WRONG_P1P2).
  { intros s K. repeat split; intros ->; discriminate. }
  remember (Apdu CLA ins p1 p2 data r) as e eqn:Ee.
  destruct M; try discriminate Ee; try (injection Ee; intros; subst).
  all: try match goal with K : (if ?x then UiApprove else _) = _ |- _ => destruct x; discriminate K end.
  all: try (split; [intros b0 s0 K|intros k0 f0 pages0 K]; (destruct K as [K|[]]; try discriminate K)).
  all: try (injection K; intros; subst; (split; [|split]); discriminate).
  all: try (injection K; intros; subst; left; reflexivity).
  - subst e. unfold refused in H. cbv beta iota in H. injection K as <- <-. destruct H as [H|[H|[H|[H|H]]]]; decompose [and] H; subst; try congruence.
    + split; [discriminate|]. split; discriminate.
    + split; [discriminate|]. split; [discriminate|]. intros _. split; [auto|]. split; [reflexivity|]. apply O2. assumption.
  - subst e. exfalso. eapply H. reflexivity.
  - apply resp_sw in K as [_ ->]. destruct H2 as [H2|(-> & -> & -> & H2)].
    + destruct (Rs _ H2) as (A & B & C). split; [exact A|]. split; [exact B|]. intros ->. congruence.
    + split; [discriminate|]. split; [discriminate|]. intros _. split; [auto|]. split; [reflexivity|]. apply O2. assumption.
  - exfalso. destruct s; discriminate.
  - injection K as <- _ _. right. left. reflexivity.
  - injection K as <- _ _. right. right. left. reflexivity.
  - destruct H0 as [[-> _]|[-> _]]; discriminate.
  - destruct H0 as [[-> _]|[-> _]]; discriminate.
Qed.

(** ** Busy *)

Lemma busy_refuses : forall E st ins p1 p2 data r, st_busy st = true -> interactive ins = true -> params_ok ins p1 p2 = true ->
  step E st (Apdu CLA ins p1 p2 data r) = (st, [OResp [] SW_BUSY]).
Proof.
  intros E st ins p1 p2 data r B I P. rewrite step_params.
  2: { rewrite known_cases. rewrite interactive_cases in I. rewrite I. rewrite !orb_true_r. reflexivity. }
  rewrite P. cbn [negb]. rewrite interactive_cases in I.
  destruct (ins =? 1) eqn:E1. { apply N.eqb_eq in E1. subst. discriminate. }
  destruct (ins =? 2) eqn:E2. { apply N.eqb_eq in E2. subst. discriminate. }
  unfold handler_epk, handler_da, handler_attest, handler_sign. rewrite B. destruct (ins =? 0x10), (ins =? 0x11), (ins =? 0x20); reflexivity.
Qed.
Lemma screen_busy : forall E key tr st q, env_ok E -> history E key tr st -> on_screen tr = Some q -> st_busy st = true.
Proof.
  intros E key tr st q Henv H Ho. destruct (screen_inv_holds E key tr st Henv H) as [_ S]. destruct (st_busy st); [reflexivity|congruence].
Qed.
Lemma host_step_busy : forall E st e st' outs, st_busy st = true -> by_user e = false -> step E st e = (st', outs) ->
  st' = st /\ exists b s, outs = [OResp b s].
Proof.
  intros E st e st' outs B U H. destruct e; try discriminate U.
  - destruct (cla =? CLA) eqn:Ec.
    2: { apply N.eqb_neq in Ec. rewrite wrong_class in H by assumption. injection H as <- <-. eauto. }
    apply N.eqb_eq in Ec. subst cla. destruct (known_ins ins) eqn:Ek.
    2: { rewrite unknown_instruction in H by assumption. injection H as <- <-. eauto. }
    destruct (params_ok ins p1 p2) eqn:Ep.
    2: { rewrite wrong_params in H by assumption. injection H as <- <-. eauto. }
    destruct (interactive ins) eqn:Ei.
    { rewrite busy_refuses in H by assumption. injection H as <- <-. eauto. }
    rewrite step_params in H by assumption. rewrite Ep in H. cbn [negb] in H. rewrite known_cases in Ek. rewrite interactive_cases in Ei.
    rewrite Ei, orb_false_r in Ek. destruct (ins =? 1); [injection H as <- <-; eauto|]. destruct (ins =? 2); [injection H as <- <-; eauto|]. discriminate.
  - cbn [step] in H. injection H as <- <-. eauto.
Qed.
Lemma host_cannot_touch : forall E key tr tr' st st' q, env_ok E -> history E key tr st -> history E key (tr ++ tr') st' ->
  on_screen tr = Some q -> Forall (fun o => by_user (fst o) = false) tr' ->
  st' = st /\ on_screen (tr ++ tr') = Some q /\ Forall (fun o => exists b s, snd o = [OResp b s]) tr'.
Proof.
  intros E key tr tr' st st' q Henv H. revert st'. induction tr' as [|o tr' IH] using rev_ind; intros st' H' Ho Hu.
  - rewrite app_nil_r in H' |- *.
    assert (K : forall tr s1 s2, history E key tr s1 -> history E key tr s2 -> s2 = s1).
    { clear. intros tr s1 s2 H1. revert s2. induction H1 as [|tr st e outs st' H1 IH He Hs Hd]; intros s2 H2.
      - inversion H2 as [K|? ? ? ? ? ? ? ? ? K]; [reflexivity|]. exfalso. eapply app_cons_not_nil. symmetry. exact K.
      - apply history_last in H2 as (s0 & H2 & _ & _ & Hs2 & _). apply IH in H2. subst s0. congruence. }
    split; [eapply K; eauto|]. split; [exact Ho|constructor].
  - destruct o as [e outs]. apply Forall_app in Hu as [Hu Hl]. inversion Hl as [|x l Hl1 _]; subst. cbn [fst] in Hl1.
    rewrite app_assoc in H' |- *. apply history_last in H' as (st1 & H1 & _ & _ & Hs & _). destruct (IH _ H1 Ho Hu) as (-> & Ho' & Hf).
    destruct (host_step_busy E st e st' outs) as (-> & b & s & ->); [eapply screen_busy; eauto|assumption|assumption|].
    split; [reflexivity|]. split.
    + rewrite on_screen_snoc. unfold question_after. cbn [fst snd shown_by]. rewrite Hl1. exact Ho'.
    + apply Forall_app. split; [exact Hf|]. constructor; [cbn [snd]; eauto|constructor].
Qed.
Lemma busy_only_then : forall E key tr st e outs b, env_ok E -> history E key (tr ++ [(e, outs)]) st -> In (OResp b SW_BUSY) outs -> on_screen tr <> None.
Proof.
  intros E key tr st e outs b Henv H Hin. apply history_last in H as (st0 & Hh & Sh & _ & _ & M & _).
  assert (B : st_busy st0 = true).
  { destruct M; try (destruct Hin as [K|[]]; discriminate K); try (destruct Hin; fail).
    - destruct Hin as [K|[]]. injection K as <- ->. destruct e; cbn in H; try contradiction; [|discriminate].
      destruct H as [H|[H|[H|[H|H]]]]; decompose [and] H; try discriminate; assumption.
    - destruct Hin as [K|[]]. apply resp_sw in K as [_ <-]. destruct H2 as [H2|[H2 _]]; discriminate.
    - destruct b0; destruct Hin as [K|[]]; discriminate.
    - destruct b0; destruct Hin as [K|[]]; discriminate.
    - destruct b0; destruct Hin as [K|[]]; discriminate.
    - destruct Hin as [K|[]]. apply resp_sw in K as [_ <-]. discriminate.
    - destruct Hin as [K|[]]. injection K as _ ->. discriminate. }
  intro K. rewrite (screen_idle_state _ _ _ _ Henv Hh K) in B. discriminate.
Qed.

(** ** Rejection *)

Lemma reject_screen : forall E key tr st q, env_ok E -> history E key tr st -> on_screen tr = Some q ->
  exists st', step E st UiReject = (st', [OResp [] SW_DENY]) /\ st_cmd st' = CMD_NONE /\ st_ctx st' = X_NONE /\
    st_connected st' = st_connected st /\ st_key st' = st_key st /\ on_screen (tr ++ [(UiReject, [OResp [] SW_DENY])]) = None.
Proof.
  intros E key tr st q Henv H Ho. pose proof (screen_busy _ _ _ _ _ Henv H Ho) as B. pose proof (history_shape _ _ _ _ H) as Sh.
  assert (Hn : forall f, on_screen (tr ++ [(UiReject, [OResp f SW_DENY])]) = None). { intros f. rewrite on_screen_snoc. reflexivity. }
  destruct (step E st UiReject) as [st' outs] eqn:Es. pose proof (step_move E st UiReject st' outs Sh Es) as M.
  exists st'. remember UiReject as e eqn:Ee.
  assert (Nm : menu_ui (st_ui st) = false). { destruct (menu_ui (st_ui st)) eqn:K; [|reflexivity]. rewrite (menu_idle _ Sh K) in B. discriminate. }
  destruct M; try discriminate Ee; subst.
  - destruct H0.
  - exfalso. cbn [step] in Es. unfold ui_action in Es. destruct (st_ui st), (st_ctx st); try discriminate.
    all: unfold ui_action_epk, ui_action_da, ui_action_attest, ui_action_stx_approve, ui_action_stx_output, ui_action_stx_tx in Es; try discriminate.
    repeat match type of Es with context [match ?x with _ => _ end] => destruct x end; discriminate.
  - exfalso. cbn [step] in Es. unfold ui_action in Es. destruct (st_ui st), (st_ctx st); try discriminate.
    all: unfold ui_action_epk, ui_action_da, ui_action_attest, ui_action_stx_approve, ui_action_stx_output, ui_action_stx_tx in Es; try discriminate.
    repeat match type of Es with context [match ?x with _ => _ end] => destruct x end; discriminate.
  - destruct b; [discriminate|]. split; [reflexivity|]. do 4 (split; [reflexivity|]). apply Hn.
  - destruct b; [discriminate|]. split; [reflexivity|]. do 4 (split; [reflexivity|]). apply Hn.
  - destruct b; [discriminate|]. split; [reflexivity|]. do 4 (split; [reflexivity|]). apply Hn.
  - destruct H2; discriminate.
  - split; [reflexivity|]. do 4 (split; [reflexivity|]). apply Hn.
  - destruct H1 as [[K _]|[K _]]; discriminate.
  - destruct H1 as [[K _]|[K _]]; discriminate.
  - destruct H1 as [[K _]|[K _]]; discriminate.
  - destruct H1 as [[K _]|[K _]]; discriminate.
Qed.
Lemma no_screen_buttons : forall E key tr st e, env_ok E -> history E key tr st -> on_screen tr = None ->
  In e [UiApprove; UiReject; UiPathBoth; UiUpper; UiLower] -> step E st e = (st, []).
Proof.
  intros E key tr st e Henv H Ho He. pose proof (screen_idle_state _ _ _ _ Henv H Ho) as B. pose proof (history_shape _ _ _ _ H) as Sh.
  pose proof (shape_idle _ Sh B) as M. cbn [In] in He. destruct (st_ui st) eqn:U; try discriminate;
    repeat (destruct He as [<-|He]; [cbn [step]; unfold ui_action, ui_path_both; rewrite U; reflexivity|]); destruct He.
Qed.

(** ** Sizes *)

Lemma tokens_length : forall l, Forall tok_ok l -> length (concat (map (fun t => fst t ++ be_bytes 8 (snd t)) l)) = (40 * length l)%nat.
Proof.
  intros l H. induction H as [|x l Hx Hl IH]; [reflexivity|]. cbn [map concat]. rewrite !app_length, be_bytes_length, IH.
  destruct Hx as (-> & _). cbn [length]. lia.
Qed.
Lemma frame_size : forall E key b i, env_ok E -> sb_wf b -> i < frame_total b ->
  In (blen (tagged E key (frame_of E b i))) [59; 99; 139; 179; 219].
Proof.
  intros E key b i Henv W H. unfold tagged, frame_of. set (toks := firstn 4 (skipn (4 * N.to_nat i) (sb_tokens b))).
  assert (Ft : Forall tok_ok toks) by (apply firstn_skipn_forall, W).
  unfold blen. rewrite app_length, firstn_length_le by (rewrite (ok_hmac_len E Henv); lia). rewrite !app_length, be_bytes_length, tokens_length by exact Ft.
  unfold box_id. rewrite (ok_blake_len E Henv). cbn [length].
  assert (K : (length toks <= 4)%nat) by (unfold toks; rewrite firstn_length; lia).
  destruct toks as [|? [|? [|? [|? [|? ?]]]]]; cbn [length] in *; [| | | | |lia]; cbn; tauto.
Qed.
Lemma key_size : forall E p pk ch, env_ok E -> generate_public_key E p = Some (pk, ch) -> blen (compress pk ++ ch) = 65.
Proof.
  intros E p pk ch Henv H. unfold generate_public_key in H. destruct (e_derive E p) as [[s c]|] eqn:D; [|discriminate].
  destruct (e_mulG E s) as [w|] eqn:G; [|discriminate]. injection H as -> ->.
  destruct (ok_derive_len E Henv _ _ _ D) as (_ & L & _). destruct (ok_mulG_len E Henv _ _ G) as [Lw _].
  unfold blen. rewrite app_length, L, compress_spec, compressed_length by exact Lw. reflexivity.
Qed.
Lemma address_size : forall E p net pk ch a, env_ok E -> generate_public_key E p = Some (pk, ch) ->
  ergo_address_from_pubkey (e_blake E) net pk = Some a -> blen a = 38.
Proof.
  intros E p net pk ch a Henv H K. unfold generate_public_key in H. destruct (e_derive E p) as [[s c]|] eqn:D; [|discriminate].
  destruct (e_mulG E s) as [w|] eqn:G; [|discriminate]. injection H as -> ->. destruct (ok_mulG_len E Henv _ _ G) as [Lw _].
  unfold ergo_address_from_pubkey, address_of in K. destruct (network_id_is_valid net); [|discriminate]. cbn [negb] in K. set (body := u8 (1 + net) :: compress pk) in K.
  assert (Ka : a = body ++ firstn 4 (e_blake E body)) by congruence. rewrite Ka. unfold blen, body at 1. rewrite app_length, firstn_length_le by (rewrite (ok_blake_len E Henv); lia). cbn [length].
  rewrite compress_spec, compressed_length by exact Lw. reflexivity.
Qed.
Lemma finish_size : forall E h x k s, env_ok E -> schnorr_sign_finish E h x k = Some s -> blen s = 56.
Proof.
  intros E h x k s Henv H. unfold schnorr_sign_finish in H. cbv zeta in H. destruct (_ =? 0); [discriminate|].
  match type of H with Some ?x = Some ?y => assert (K : y = x) by congruence end. rewrite K. unfold blen.
  rewrite app_length, be_bytes_length, firstn_length_le by (rewrite (ok_blake_len E Henv); lia). reflexivity.
Qed.
Lemma sig_size : forall E c s, env_ok E -> p2pk_send_response E c = Ok s -> blen s = 56.
Proof.
  intros E c s Henv H. unfold p2pk_send_response in H. destruct (op_state_of c); try discriminate. destruct (e_derive E (op_path c)) as [[x y]|]; [|discriminate].
  destruct (schnorr_sign_finish E (op_hash c) x (op_key c)) as [s'|] eqn:F; [|discriminate]. apply finish_size in F; [|exact Henv]. congruence.
Qed.
Lemma resp_inj : forall b s b' s', OResp b s = OResp b' s' -> b = b'.
Proof. congruence. Qed.
Lemma answer_size : forall E key tr st e outs b s, env_ok E -> history E key (tr ++ [(e, outs)]) st -> In (OResp b s) outs ->
  (s <> SW_OK -> b = []) /\ (s = SW_OK -> In (blen b) (answer_sizes (on_screen tr) e)).
Proof.
  intros E key tr st' e outs b s Henv H Hin. pose proof H as Hall. apply history_last in H as (st & Hh & Sh & Hev & Hstep & M & _).
  assert (Ok0 : s <> SW_OK -> b = []).
  { destruct M; try (destruct Hin as [K|[]]; try discriminate K; injection K as <- <-; try reflexivity; try congruence; fail); try (destruct Hin; fail).
    - destruct Hin as [K|[]]. apply resp_sw in K as [-> _]. reflexivity.
    - destruct b0; destruct Hin as [K|[]]; injection K as <- <-; congruence.
    - destruct b0; destruct Hin as [K|[]]; injection K as <- <-; congruence.
    - destruct b0; destruct Hin as [K|[]]; injection K as <- <-; congruence.
    - destruct Hin as [K|[]]. apply resp_sw in K as [-> _]. reflexivity. }
  split; [exact Ok0|]. clear Ok0. intros ->.
  assert (Ui : st_busy st = true -> exists q f pages, on_screen tr = Some (q, st_ui st, f, pages) /\ asked E st q pages).
  { intros B. destruct (screen_inv_holds E key tr st Henv Hh) as [_ S]. rewrite B in S. destruct S as (q & pages & S1 & S2). eauto. }
  destruct M; try (destruct Hin as [K|[]]; try discriminate K; fail); try (destruct Hin; fail).
  - (* refused *) destruct Hin as [K|[]]. injection K as <- ->. exfalso. destruct e; cbn in H; try contradiction; [|discriminate].
    destruct H as [H|[H|[H|[H|H]]]]; decompose [and] H; discriminate.
  - destruct Hin as [K|[]]. apply resp_inj in K. rewrite <- K; clear K. left. reflexivity.
  - destruct Hin as [K|[]]. apply resp_inj in K. rewrite <- K; clear K. left. reflexivity.
  - exfalso. destruct Hin as [K|[]]. apply resp_sw in K as [_ <-]. destruct H2 as [H2|[H2 _]]; discriminate.
  - destruct Hin as [K|[]]. apply resp_inj in K. rewrite <- K; clear K. rewrite (key_size _ _ _ _ Henv H3). left. reflexivity.
  - destruct b0; destruct Hin as [K|[]]; [|discriminate]. apply resp_inj in K. rewrite <- K; clear K. destruct Ui as (q & f & pages & S1 & S2).
    { apply busy_ui; [exact Sh|]. rewrite H. reflexivity. }
    destruct S2 as (_ & S2). rewrite H0 in S2. destruct S2 as (p1 & data & r & s & _ & _ & _ & _ & G & _).
    rewrite (key_size _ _ _ _ Henv G). cbn [answer_sizes]. rewrite S1, H. destruct q; left; reflexivity.
  - destruct Hin as [K|[]]. apply resp_inj in K. rewrite <- K; clear K. rewrite (address_size _ _ _ _ _ _ Henv H3 H4). left. reflexivity.
  - destruct b0; destruct Hin as [K|[]]; [|discriminate]. apply resp_inj in K. rewrite <- K; clear K. destruct Ui as (q & f & pages & S1 & S2).
    { apply busy_ui; [exact Sh|]. rewrite H. reflexivity. }
    destruct S2 as (_ & S2). rewrite H0 in S2. destruct S2 as (p1 & p2 & data & r & pk & ch & ff & -> & _ & _ & _ & _ & G & A & _ & Hs & _).
    cbn [answer_sizes]. rewrite S1, H, Hs. destruct (p1 =? 1); [|left; reflexivity]. rewrite (address_size _ _ _ _ _ _ Henv G A). left. reflexivity.
  - destruct Hin as [K|[]]. apply resp_inj in K. rewrite <- K; clear K. left. reflexivity.
  - destruct Hin as [K|[]]. apply resp_inj in K. rewrite <- K; clear K. pose proof (attest_call_sub _ _ _ H3) as Hn. cbn [answer_sizes].
    change (INS_ATTEST =? INS_VERSION) with false; change (INS_ATTEST =? INS_NAME) with false; change (INS_ATTEST =? INS_KEY) with false.
    change (INS_ATTEST =? INS_ADDRESS) with false. change (INS_ATTEST =? INS_ATTEST) with true. cbn [orb].
    apply N.eqb_neq in Hn. rewrite Hn. assert (N5 : (sub =? 5) = false). { apply N.eqb_neq. intros ->. discriminate H3. }
    rewrite N5. left. reflexivity.
  - destruct Hin as [K|[]]. apply resp_inj in K. rewrite <- K; clear K. pose proof (attest_call_sub _ _ _ H3) as Hn. cbn [answer_sizes].
    change (INS_ATTEST =? INS_VERSION) with false; change (INS_ATTEST =? INS_NAME) with false; change (INS_ATTEST =? INS_KEY) with false.
    change (INS_ATTEST =? INS_ADDRESS) with false. change (INS_ATTEST =? INS_ATTEST) with true. cbn [orb].
    apply N.eqb_neq in Hn. rewrite Hn. assert (N5 : (sub =? 5) = false). { apply N.eqb_neq. intros ->. discriminate H3. }
    rewrite N5. right. left. reflexivity.
  - destruct Hin as [K|[]]. apply resp_inj in K. rewrite <- K; clear K.
    destruct (frame_answer _ _ _ _ _ _ _ _ Henv Hall) as (start & body & j & _ & _ & _ & _ & Hj & _ & W & ->).
    exact (frame_size E key _ j Henv W Hj).
  - destruct b0; destruct Hin as [K|[]]; [|discriminate]. apply resp_inj in K. rewrite <- K; clear K. destruct Ui as (q & f & pages & S1 & S2).
    { apply busy_ui; [exact Sh|]. rewrite H. reflexivity. }
    cbn [answer_sizes]. rewrite S1, H. destruct q; left; reflexivity.
  - destruct Hin as [K|[]]. apply resp_inj in K. rewrite <- K; clear K. left. reflexivity.
  - destruct Hin as [K|[]]. apply resp_inj in K. rewrite <- K; clear K. destruct Ui as (q & f & pages & S1 & S2).
    { apply busy_ui; [exact Sh|]. rewrite H. reflexivity. }
    destruct H1 as [-> | ->]; cbn [answer_sizes]; rewrite S1, H; destruct q; left; reflexivity.
  - destruct Hin as [K|[]]. apply resp_inj in K. rewrite <- K; clear K. destruct Ui as (q & f & pages & S1 & S2).
    { apply busy_ui; [exact Sh|]. rewrite H. reflexivity. }
    cbn [answer_sizes]. rewrite S1, H. destruct q; left; reflexivity.
  - destruct Hin as [K|[]]. apply resp_inj in K. rewrite <- K; clear K. destruct Ui as (q & f & pages & S1 & S2).
    { apply busy_ui; [exact Sh|]. rewrite H. reflexivity. }
    cbn [answer_sizes]. rewrite S1, H. assert (L : blen s = 56).
    { exact (sig_size _ _ _ Henv H1). }
    rewrite L. destruct q; left; reflexivity.
  - exfalso. destruct Hin as [K|[]]. apply resp_sw in K as [_ <-]. discriminate.
  - exfalso. destruct Hin as [K|[]]. injection K as _ ->. discriminate.
Qed.
Lemma answer_sizes_small : forall q e n, In n (answer_sizes q e) -> n <= 219.
Proof.
  intros q e n H. destruct e; cbn [answer_sizes] in H; try (destruct H; fail).
  - repeat match type of H with context [if ?c then _ else _] => destruct c end; cbn [In] in H; repeat (destruct H as [<-|H]; [lia|]); destruct H.
  - destruct q as [[[[[| | | | | | | |] []] f] pages]|]; try (destruct H; fail);
      repeat match type of H with context [if ?c then _ else _] => destruct c end; cbn [In] in H; repeat (destruct H as [<-|H]; [lia|]); destruct H.
  - destruct q as [[[[a []] f] pages]|]; try (destruct H; fail); cbn [In] in H; repeat (destruct H as [<-|H]; [lia|]); destruct H.
Qed.
Lemma answers : forall E key tr st e outs, env_ok E -> history E key (tr ++ [(e, outs)]) st ->
  (length outs <= 1)%nat /\ forall b s, In (OResp b s) outs ->
    (s <> SW_OK -> b = []) /\ (s = SW_OK -> In (blen b) (answer_sizes (on_screen tr) e)) /\ (length b + 2 <= 260)%nat.
Proof.
  intros E key tr st e outs Henv H. split.
  - apply history_last in H as (st0 & _ & _ & _ & _ & M & _). eapply at_most_one. exact M.
  - intros b s Hin. destruct (answer_size _ _ _ _ _ _ _ _ Henv H Hin) as [A B]. do 2 (split; [assumption|]).
    destruct (sw_eqb s SW_OK) eqn:Es.
    + assert (s = SW_OK) by (destruct s; try discriminate; reflexivity). apply B, answer_sizes_small in H0. unfold blen in H0. lia.
    + rewrite A by (intros ->; discriminate). cbn. lia.
Qed.

(** ** Flows *)

Lemma static_path : forall p t c b s, ui_bip32_path_screen p t c b = Some s -> static_screen s.
Proof. intros p t c b s H. unfold ui_bip32_path_screen in H. destruct (bip32_path_format c p); [|discriminate]. injection H as <-. exact I. Qed.
Lemma da_form : forall b t p a f, da_screens b t p a = Ok f -> exists body, f = body ++ [SC_APPROVE; SC_REJECT] /\ (length body <= 4)%nat /\ Forall static_screen body.
Proof.
  intros b t p a f H. unfold da_screens in H. destruct (ui_bip32_path_screen p (str "Path") 60 false) as [s|] eqn:Es; [|discriminate].
  apply static_path in Es. set (f0 := add s (add (SC_INFO (str (if b then "Confirm Send Address" else "Confirm Address"))) [])) in *.
  assert (H0 : length f0 = 2%nat /\ Forall static_screen f0).
  { split; [reflexivity|]. change f0 with [SC_INFO (str (if b then "Confirm Send Address" else "Confirm Address")); s]. repeat constructor. exact Es. }
  cbv zeta in H. destruct (if b then Ok f0 else _) as [f1|] eqn:E1; [|discriminate].
  assert (H1 : (length f1 <= 3)%nat /\ Forall static_screen f1).
  { destruct b; [inv E1; destruct H0; split; [lia|assumption]|]. destruct (base58_encode a P2PK_ADDRESS_STRING_MAX_LEN) as [x|]; [|discriminate].
    destruct (Nat.leb _ _); [discriminate|]. inv E1. destruct H0 as [L0 F0]. rewrite add_short by (unfold blen; lia). rewrite app_length. cbn [length].
    split; [lia|]. apply Forall_app. split; [exact F0|]. repeat constructor. }
  cbn [bind] in H.
  match type of H with context [ui_approve_reject_screens ?x] => set (f2 := x) in * end.
  assert (H2 : (length f2 <= 4)%nat /\ Forall static_screen f2).
  { unfold f2. destruct H1 as [L1 F1]. destruct (t =? 0); [split; [lia|assumption]|]. rewrite add_short by (unfold blen; lia). rewrite app_length. cbn [length].
    split; [lia|]. apply Forall_app. split; [exact F1|]. repeat constructor. }
  destruct H2 as [L2 F2]. destruct (fits _ L2) as (g & G1 & G2 & _). rewrite G1 in H. inv H. exists f2. auto.
Qed.
Lemma flow_form : forall E key tr st e k f pages, env_ok E -> history E key tr st -> on_screen tr = Some (e, k, f, pages) -> flow_ok k f pages.
Proof.
  intros E key tr st e k f pages Henv H Ho.
  destruct (screen_state _ _ _ _ _ _ _ _ Henv H Ho) as (B & U & F & _ & A). pose proof (history_shape _ _ _ _ H) as Sh. unfold shape in Sh.
  destruct (st_ctx st) as [|x|x|x|g].
  - destruct A.
  - destruct Sh as (_ & S & _). rewrite S in U. subst k. destruct A as (p1 & data & r & s & _ & _ & _ & _ & _ & _ & Es & Ef & ->).
    apply static_path in Es. rewrite F in Ef. clear F. subst f. unfold epk_flow.
    match goal with |- flow_ok _ (?b ++ _) _ => exists b end. split; [reflexivity|].
    destruct (token_of e =? 0); (split; [vm_compute; lia|]); split; try reflexivity.
    + change (Forall static_screen [SC_INFO (str "Ext PubKey Export"); s]). repeat constructor. exact Es.
    + change (Forall static_screen [SC_INFO (str "Ext PubKey Export"); s; ui_application_id_screen (token_of e)]). repeat constructor. exact Es.
  - destruct Sh as (_ & S & _). rewrite S in U. subst k. destruct A as (p1 & p2 & data & r & pk & ch & ff & _ & _ & _ & _ & _ & _ & _ & _ & _ & Es & Ef & ->).
    rewrite F in Ef. clear F. subst f. destruct (da_form _ _ _ _ _ Es) as (body & -> & L & Fs). exists body. split; [rewrite <- app_assoc; reflexivity|].
    split; [rewrite !app_length; cbn [length]; lia|]. auto.
  - destruct Sh as (_ & S). destruct A as (p2 & data & r & _ & _ & _ & Ef & -> & _). rewrite F in Ef. clear F. subst f. unfold attest_flow.
    assert (K : k = U_ATTEST) by (destruct (at_state x); destruct S; congruence). subst k.
    match goal with |- flow_ok _ (?b ++ _) _ => exists b end. split; [reflexivity|].
    rewrite K. destruct (token_of e =? 0); (split; [vm_compute; lia|]); split; try reflexivity.
    + change (Forall static_screen [SC_INFO (str "Confirm Attest Input")]). repeat constructor.
    + change (Forall static_screen [SC_INFO (str "Confirm Attest Input"); ui_application_id_screen (token_of e)]). repeat constructor.
  - destruct Sh as (_ & S). destruct (sg_state g).
    + destruct S as (_ & S & _). rewrite S in U. subst k. destruct A as (p2 & data & r & x & known & _ & _ & _ & _ & Ef & ->). rewrite F in Ef. clear F. subst f. unfold sign_flow.
      exists (SC_PATH (str "P2PK Signing") x true :: (if known then [] else [SC_TEXT (str "Application") (Format.app_id_text (token_of e))])).
      split; [destruct known; reflexivity|]. split; [destruct known; cbn [length List.app]; lia|]. split; [|reflexivity]. destruct known; repeat constructor.
    + destruct A as (sub & data & r & _ & _ & _ & Ep & D & Ef & _). rewrite F in Ef. clear F. subst f. unfold paged_flow.
      match goal with |- context [SC_INFO ?t :: _] => exists [SC_INFO t; SC_UPPER; SC_PAGE; SC_LOWER] end. split; [reflexivity|]. split; [cbn [length]; lia|].
      assert (L : (1 <= length pages <= 254)%nat). { rewrite Ep. unfold pages_of. rewrite map_length, seq_length. destruct D as [D _]. lia. }
      assert (K : k = U_STX_OUTPUT \/ k = U_STX_TX).
      { destruct S as [[S _]|[(_ & S & _)|[_ S]]]; [congruence| |]; rewrite S in U; auto. }
      destruct K as [-> | ->]; eexists; (split; [reflexivity|exact L]).
Qed.
Lemma shown_flow : forall E key tr st e outs k f pages, env_ok E -> history E key (tr ++ [(e, outs)]) st -> In (OShow k f pages) outs -> flow_ok k f pages.
Proof.
  intros E key tr st e outs k f pages Henv H Hin.
  assert (Ho : on_screen (tr ++ [(e, outs)]) = Some (e, k, f, pages)).
  { apply history_last in H as (st0 & _ & _ & _ & _ & M & _). apply at_most_one in M. destruct outs as [|o [|o' l]]; [destruct Hin| |cbn in M; lia].
    destruct Hin as [-> |[]]. rewrite on_screen_snoc. reflexivity. }
  eapply flow_form; eauto.
Qed.

(** ** Pages *)

Lemma page_drawn : forall E key tr st e outs i t b, env_ok E -> history E key (tr ++ [(e, outs)]) st -> In (OPage i t b) outs ->
  exists q k f pages, on_screen tr = Some (q, k, f, pages) /\ i < blen pages /\ nth_error pages (N.to_nat i) = Some (Ok (t, b)).
Proof.
  intros E key tr st' e outs i t b Henv H Hin. apply history_last in H as (st & Hh & Sh & Hev & Hstep & M & _).
  destruct M; try (destruct Hin as [K|[]]; try discriminate K; fail); try (destruct Hin; fail).
  - exfalso. destruct Hin as [K|[]]. destruct s; discriminate.
  - exfalso. destruct b0; destruct Hin as [K|[]]; discriminate.
  - exfalso. destruct b0; destruct Hin as [K|[]]; discriminate.
  - exfalso. destruct b0; destruct Hin as [K|[]]; discriminate.
  - exfalso. destruct Hin as [K|[]]. destruct s; discriminate.
  - destruct Hin as [K|[]]. injection K as -> -> ->. destruct (page_announced E key tr st e d i Henv Hh H H0) as (q & f & pages & P1 & P2 & P3).
    exists q, (st_ui st), f, pages. do 2 (split; [assumption|]). rewrite H1 in P3. rewrite <- P3. apply nth_error_nth'. unfold blen in P2. lia.
Qed.

Section Walk.
  Variables (E : env) (st : state) (ps : list (text * text)).
  Hypothesis Hp : has_pages (st_ui st) = true.
  Let n := blen ps.
  Hypothesis Hn : 1 <= n <= 254.
  Hypothesis Hpg : forall i, (i < length ps)%nat -> page_of E (st_ui st) (st_ctx st) (N.of_nat i) = Ok (nth i ps ([], [])).
  Let at_ (c : N) : state := set_dyn st (mk_dyn n c).

  Lemma walk_draw : forall c i, (i < length ps)%nat -> display_dynamic E (at_ c) (mk_dyn n (N.of_nat i), Some (N.of_nat i)) = (at_ (N.of_nat i), drawn i (nth i ps ([], []))).
  Proof.
    intros c i H. unfold display_dynamic. cbn [snd fst]. unfold at_. cbn [set_dyn st_ui st_ctx]. rewrite Hpg by assumption.
    unfold drawn. destruct (nth i ps ([], [])) as [t b]. reflexivity.
  Qed.
  Lemma walk_lower : forall i, (S i < length ps)%nat -> step E (at_ (N.of_nat i)) UiLower = (at_ (N.of_nat (S i)), drawn (S i) (nth (S i) ps ([], []))).
  Proof.
    intros i H. cbn [step]. unfold at_ at 1. cbn [set_dyn st_ui]. rewrite Hp. rewrite <- (walk_draw (N.of_nat i) (S i) H). f_equal.
    unfold at_, ui_dynamic_step_right, INDEX_NOT_EXIST. cbn [st_dyn set_dyn dy_current dy_count]. unfold n, blen in *.
    destruct (N.of_nat i =? 255) eqn:A; [apply N.eqb_eq in A; lia|]. destruct (N.of_nat i + 1 <? N.of_nat (length ps)) eqn:B; [|apply N.ltb_ge in B; lia].
    replace (N.of_nat i + 1) with (N.of_nat (S i)) by lia. reflexivity.
  Qed.
  Lemma walk_upper : forall i, (S i < length ps)%nat -> step E (at_ (N.of_nat (S i))) UiUpper = (at_ (N.of_nat i), drawn i (nth i ps ([], []))).
  Proof.
    intros i H. cbn [step]. unfold at_ at 1. cbn [set_dyn st_ui]. rewrite Hp. rewrite <- (walk_draw (N.of_nat (S i)) i) by lia. f_equal.
    unfold at_, ui_dynamic_step_left, INDEX_NOT_EXIST. cbn [st_dyn set_dyn dy_current dy_count]. unfold n, blen in *.
    destruct (N.of_nat (S i) =? 255) eqn:A; [apply N.eqb_eq in A; lia|]. destruct (N.of_nat (S i) =? 0) eqn:B; [apply N.eqb_eq in B; lia|].
    replace (N.of_nat (S i) - 1) with (N.of_nat i) by lia. reflexivity.
  Qed.
  Lemma walk_out_lower : forall i, S i = length ps -> step E (at_ (N.of_nat i)) UiLower = (at_ 255, []).
  Proof.
    intros i H. cbn [step]. unfold at_ at 1. cbn [set_dyn st_ui]. rewrite Hp. unfold at_, ui_dynamic_step_right, INDEX_NOT_EXIST. cbn [st_dyn set_dyn dy_current dy_count].
    unfold n, blen in *. destruct (N.of_nat i =? 255) eqn:A; [apply N.eqb_eq in A; lia|]. destruct (N.of_nat i + 1 <? N.of_nat (length ps)) eqn:B; [apply N.ltb_lt in B; lia|]. reflexivity.
  Qed.
  Lemma walk_out_upper : step E (at_ 0) UiUpper = (at_ 255, []).
  Proof. cbn [step]. unfold at_ at 1. cbn [set_dyn st_ui]. rewrite Hp. reflexivity. Qed.
  Lemma walk_in_upper : step E (at_ 255) UiUpper = (at_ 0, drawn 0 (nth 0 ps ([], []))).
  Proof.
    cbn [step]. unfold at_ at 1. cbn [set_dyn st_ui]. rewrite Hp. change 0 with (N.of_nat 0). rewrite <- (walk_draw 255 0) by (unfold n, blen in *; lia). reflexivity.
  Qed.
  Lemma walk_in_lower : forall i, S i = length ps -> step E (at_ 255) UiLower = (at_ (N.of_nat i), drawn i (nth i ps ([], []))).
  Proof.
    intros i H. cbn [step]. unfold at_ at 1. cbn [set_dyn st_ui]. rewrite Hp. rewrite <- (walk_draw 255 i) by lia. f_equal.
    unfold at_, ui_dynamic_step_right. cbn [st_dyn set_dyn dy_current dy_count]. change (255 =? INDEX_NOT_EXIST) with true. cbv iota zeta.
    assert (U : u8 (n + two8 - 1) = N.of_nat i).
    { unfold u8, two8. replace (n + 256 - 1) with (N.of_nat i + 1 * 256) by (unfold n, blen in *; lia). rewrite N.mod_add by discriminate. apply N.mod_small. unfold n, blen in *; lia. }
    rewrite U. reflexivity.
  Qed.
  Lemma walk_right : forall j i, (i + S j = length ps)%nat ->
    run E (at_ (N.of_nat i)) (repeat UiLower (S j)) = (at_ 255, map (fun i => drawn i (nth i ps ([], []))) (seq (S i) j) ++ [[]]).
  Proof.
    induction j as [|j IH]; intros i H.
    - cbn [repeat run]. rewrite walk_out_lower by lia. reflexivity.
    - change (repeat UiLower (S (S j))) with (UiLower :: repeat UiLower (S j)). cbn [run]. rewrite walk_lower by lia. rewrite IH by lia. reflexivity.
  Qed.
  Lemma walk_left : forall i, (i < length ps)%nat ->
    run E (at_ (N.of_nat i)) (repeat UiUpper (S i)) = (at_ 255, rev (map (fun i => drawn i (nth i ps ([], []))) (seq 0 i)) ++ [[]]).
  Proof.
    induction i as [|i IH]; intros H.
    - cbn [repeat run]. change (N.of_nat 0) with 0. rewrite walk_out_upper. reflexivity.
    - change (repeat UiUpper (S (S i))) with (UiUpper :: repeat UiUpper (S i)). cbn [run]. rewrite walk_upper by lia. rewrite IH by lia.
      rewrite seq_S, map_app, rev_app_distr. reflexivity.
  Qed.
  Lemma walk_both : st_dyn st = mk_dyn n 255 ->
    run E st (UiUpper :: repeat UiLower (length ps)) = (st, drawn_all ps ++ [[]]) /\
    run E st (UiLower :: repeat UiUpper (length ps)) = (st, rev (drawn_all ps) ++ [[]]).
  Proof.
    intros Hd. assert (S0 : st = at_ 255). { unfold at_. rewrite <- Hd. destruct st. reflexivity. }
    assert (L : exists m, length ps = S m). { destruct (length ps) eqn:K; [unfold n, blen in Hn; lia|eauto]. }
    destruct L as [m L]. unfold drawn_all. rewrite L. split.
    - rewrite S0 at 1. cbn [run]. rewrite walk_in_upper. change 0 with (N.of_nat 0). rewrite (walk_right m 0) by lia. rewrite <- S0. reflexivity.
    - rewrite S0 at 1. cbn [run]. rewrite (walk_in_lower m) by lia. rewrite walk_left by lia. rewrite <- S0. rewrite seq_S, map_app, rev_app_distr. reflexivity.
  Qed.
End Walk.

Lemma walk_pages : forall E key tr st e k f ps, env_ok E ->
  history E key (tr ++ [(e, [OShow k f (map (fun p => Ok p) ps)])]) st -> k = U_STX_OUTPUT \/ k = U_STX_TX ->
  run E st (UiUpper :: repeat UiLower (length ps)) = (st, drawn_all ps ++ [[]]) /\
  run E st (UiLower :: repeat UiUpper (length ps)) = (st, rev (drawn_all ps) ++ [[]]).
Proof.
  intros E key tr st e k f ps Henv H Hk.
  assert (Ho : on_screen (tr ++ [(e, [OShow k f (map (fun p => Ok p) ps)])]) = Some (e, k, f, map (fun p => Ok p) ps)) by (rewrite on_screen_snoc; reflexivity).
  destruct (screen_state _ _ _ _ _ _ _ _ Henv H Ho) as (B & U & F & _ & A).
  destruct (paged_session _ _ _ _ _ _ _ _ Henv H Ho Hk) as (g & start & body & s & X1 & X2 & _).
  rewrite X1, X2 in A. destruct A as (sub & data & r & _ & _ & _ & Ep & [D1 D2] & _).
  assert (Ln : blen ps = dy_count (st_dyn st)).
  { apply (f_equal (@length page)) in Ep. unfold pages_of in Ep. rewrite !map_length, seq_length in Ep. unfold blen. lia. }
  assert (Cur : dy_current (st_dyn st) = 255).
  { apply history_last in H as (st0 & _ & _ & _ & _ & M & _).
    assert (K : forall outs st', move E st0 e st' outs -> outs = [OShow k f (map (fun p => Ok p) ps)] -> st_dyn st' = dyn_none \/ dy_current (st_dyn st') = 255).
    { clear - Hk. intros outs st' M Eo. destruct M; try discriminate Eo; try (left; reflexivity).
      all: try (destruct s; discriminate). all: try (destruct b; discriminate).
      - right. apply output_flow in H7 as (_ & _ & Hd & _). exact Hd.
      - right. apply confirm_flow in H4 as (_ & _ & Hd & _). exact Hd. }
    destruct (K _ _ M eq_refl) as [K1|K1]; [rewrite K1; reflexivity|exact K1]. }
  apply walk_both.
  - rewrite U. destruct Hk as [-> | ->]; reflexivity.
  - rewrite Ln. exact D1.
  - intros i Hi. assert (G : nth i (map (fun p => Ok p) ps) (Fail SW_UB) = (page_of E (st_ui st) (st_ctx st) (N.of_nat i))).
    { rewrite Ep, X1. unfold pages_of. set (pg := fun j : nat => page_of E (st_ui st) (X_SIGN g) (N.of_nat j)).
      rewrite (nth_indep _ _ (pg 0%nat)) by (rewrite map_length, seq_length; unfold blen in Ln; lia).
      rewrite map_nth, seq_nth by (unfold blen in Ln; lia). reflexivity. }
    rewrite <- G. rewrite (nth_indep _ _ (Ok ([], []))) by (rewrite map_length; lia). rewrite (map_nth (fun p => Ok p)). reflexivity.
  - destruct (st_dyn st) as [c cur]. cbn in *. subst. congruence.
Qed.
