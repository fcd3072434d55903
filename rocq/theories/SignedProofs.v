(** The bytes under a signature, and the signature equation. *)
From Verif Require Import Lib Env Bip32 Address ErgoTree Schnorr TxTable TxBox TxFull Amounts OutputInfo UiFlow P2pkOp App
  SpecVlq SpecTree SpecTrace SpecTx SpecApdu SpecAmounts SpecScreen SpecDispatch SpecSign TreeProofs Moves SignInv SignInput SignOutput SignRest SignShow
  TraceSign TraceScreen PageProofs TraceShow DispatchProofs SessionProofs Toy.

#[local] Arguments N.eqb : simpl never.
#[local] Arguments N.ltb : simpl never.
#[local] Arguments N.leb : simpl never.
#[local] Arguments N.sub : simpl never.
#[local] Arguments blen : simpl never.
#[local] Arguments num : simpl never.
#[local] Arguments slice : simpl never.

(** ** Counts *)

Lemma count_eq_all : forall A (f : A -> bool) l, count_complete f l = blen l -> Forall (fun x => f x = true) l.
Proof.
  intros A f. induction l as [|x l IH]; intro H; [constructor|]. change (x :: l) with ([x] ++ l) in H.
  rewrite count_app, count_one, blen_app in H. change (blen [x]) with 1 in H. pose proof (count_le _ f l).
  destruct (f x) eqn:F; [|lia]. constructor; [exact F|apply IH; lia].
Qed.

Record finished_tx (E : env) (d : s_tx) (h : s_head) : Prop := mk_ft {
  ft_inputs : Forall (fun i => input_complete i = true) (sx_inputs d);
  ft_ninputs : blen (sx_inputs d) = sh_inputs h;
  ft_ndata : blen (sx_data d) = sh_data h;
  ft_ntokens : blen (sx_tokens d) = sh_tokens h;
  ft_noutputs : count_complete output_complete (sx_outputs d) = sh_outputs h;
  ft_bytes : tx_bytes E d h = streamed_bytes E d }.
Lemma finished_counts : forall E d h, wf E d h -> op_phase d h = OP_TX_FINISHED -> finished_tx E d h.
Proof.
  intros E d h W P. unfold op_phase in P. destruct (sx_outputs d) as [|o l] eqn:Eo; [destruct (sx_inputs d); discriminate|].
  destruct (outputs_in d h) eqn:Oi; [|discriminate]. destruct (w_out_in _ _ _ W) as [Ii Di]; [rewrite Eo; discriminate|].
  pose proof Ii as Ii'. pose proof Di as Di'. pose proof Oi as Oi'.
  unfold inputs_in in Ii. unfold data_in in Di. unfold outputs_in in Oi. apply N.eqb_eq in Ii, Di, Oi. unfold done_inputs in Ii. unfold done_outputs in Oi.
  pose proof (w_in_le _ _ _ W) as Le. pose proof (count_le _ input_complete (sx_inputs d)) as Cl.
  assert (All : Forall (fun i => input_complete i = true) (sx_inputs d)) by (apply count_eq_all; lia).
  assert (Ne : sx_inputs d <> []). { pose proof (w_inputs _ _ _ W). intro K. rewrite K in Ii. rewrite count_nil in Ii. lia. }
  pose proof (w_in_tokens _ _ _ W Ne) as T. unfold tokens_in in T. apply N.eqb_eq in T.
  assert (B : map in_bytes (sx_inputs d) = map input_bytes (sx_inputs d)).
  { apply map_ext_in. intros i Hi. rewrite Forall_forall in All. specialize (All i Hi). unfold in_bytes, input_bytes.
    unfold input_complete in All. apply andb_true_iff in All as [A _]. unfold frames_in. rewrite A. reflexivity. }
  constructor; try assumption; try lia.
  unfold tx_bytes, streamed_bytes. rewrite Ii', Di', B. replace (blen (sx_inputs d)) with (sh_inputs h) by lia.
  rewrite Di, T, Oi. reflexivity.
Qed.
Lemma complete_bytes : forall E o, output_complete o = true -> output_bytes_so_far E o = output_bytes E o.
Proof.
  intros E o H. unfold output_complete in H. apply andb_true_iff in H as [H _]. apply andb_true_iff in H as [H1 H2].
  unfold output_bytes_so_far, output_bytes. rewrite H1, H2. apply N.eqb_eq in H2. rewrite H2. reflexivity.
Qed.
Lemma streamed_complete : forall E d, Forall (fun o => output_complete o = true) (sx_outputs d) -> streamed_bytes E d = bytes_to_sign E d.
Proof.
  intros E d F. unfold streamed_bytes, bytes_to_sign. rewrite (count_all _ _ _ F). do 7 f_equal. f_equal.
  apply map_ext_in. intros o Ho. rewrite Forall_forall in F. apply complete_bytes. apply F. exact Ho.
Qed.

(** ** The signature equation *)

Lemma mod_add_r : forall a b n, n <> 0 -> (a + b mod n) mod n = (a + b) mod n.
Proof. intros. rewrite N.add_mod_idemp_r by assumption. reflexivity. Qed.
Lemma signed_schnorr : forall E start body sid s h sk ch sig, env_ok E -> final_state E start body sid s h ->
  e_derive E (ss_path s) = Some (sk, ch) ->
  schnorr_sign_finish E (ss_prefix s ++ tx_bytes E (description body) h) sk (ss_key s) = Some sig ->
  session_secret E start sk /\ In (ss_key s) (session_nonces start) /\ schnorr E sk (ss_key s) (streamed_bytes E (description body)) sig.
Proof.
  intros E start body sid s h sk ch sig Henv F D S. pose proof (finished_counts _ _ _ (fs_wf _ _ _ _ _ _ F) (fs_phase _ _ _ _ _ _ F)) as T.
  rewrite (ft_bytes _ _ _ T) in S. destruct (fs_started _ _ _ _ _ _ F) as (p2 & data & r & f & sk' & ch' & pk & w & -> & _ & _ & A & B & C & C1 & C2 & C3 & C4 & C5 & C6 & C7 & C8 & C9 & _).
  split; [exists ch; unfold start_data; cbn [fst]; rewrite <- A; exact D|]. split; [exact C6|].
  assert (sk' = sk) by congruence. subst sk'. exists pk, w. split; [exact C4|]. split; [exact C5|].
  rewrite C9 in S. rewrite !compress_spec in S by (eapply ok_mulG_len; eauto). unfold schnorr_sign_finish in S.
  replace ((SCHNORR_PREFIX ++ compressed pk ++ SCHNORR_SUFFIX ++ compressed w) ++ streamed_bytes E (description body))
    with (commitment (compressed pk) (compressed w) ++ streamed_bytes E (description body)) in S by (unfold commitment; rewrite <- !app_assoc; reflexivity).
  unfold challenge. set (c := firstn 24 (e_blake E (commitment (compressed pk) (compressed w) ++ streamed_bytes E (description body)))) in *. cbv zeta in S |- *.
  destruct (be_value c =? 0); [discriminate|]. rewrite order_eq, <- mod_add_r by discriminate. congruence.
Qed.
Lemma signed_bytes : forall E key tr o st sig, env_ok E -> history E key (tr ++ [o]) st -> signature o = Some sig ->
  exists start body, session_of INS_SIGN tr = Some (start, body) /\
    signed_message E start (streamed_bytes E (description body)) sig /\
    (Forall (fun o => output_complete o = true) (sx_outputs (description body)) ->
     streamed_bytes E (description body) = bytes_to_sign E (description body)).
Proof.
  intros E key tr o st sig Henv H S. destruct (signed _ _ _ _ _ _ Henv H S) as (_ & _ & _ & start & body & sid & s & h & sk & ch & O1 & F & D & Fi).
  destruct (signed_schnorr _ _ _ _ _ _ _ _ _ Henv F D Fi) as (A & B & C). exists start, body. split; [exact O1|].
  split; [exists sk, (ss_key s); auto|apply streamed_complete].
Qed.
Lemma final_counts : forall E key tr st q f pages, env_ok E -> history E key tr st -> on_screen tr = Some (q, U_STX_TX, f, pages) ->
  exists start body, session_of INS_SIGN tr = Some (start, body) /\ counts_met (description body).
Proof.
  intros E key tr st q f pages Henv H Q.
  destruct (paged_session _ _ _ _ _ _ _ _ Henv H Q (or_intror eq_refl)) as (g & start & body & s & X1 & X2 & X3 & X4 & X5 & X6 & X7 & X8 & _).
  unfold sign_phase in X8. rewrite X2 in X8. destruct X8 as (_ & h & W & (_ & _ & _ & _ & _ & F8) & S).
  exists start, body. split; [exact X4|]. pose proof (finished_counts _ _ _ W F8) as T.
  exists h. split; [apply W|]. destruct T. auto.
Qed.

Lemma filter_all : forall {A} (f : A -> bool) l, blen (filter f l) = blen l <-> Forall (fun x => f x = true) l.
Proof.
  intros A f l. unfold blen. split.
  - intro H. assert (Hn : length (filter f l) = length l) by lia. clear H. induction l as [|x l IH]; [constructor|]. cbn in Hn.
    destruct (f x) eqn:Fx; [constructor; auto; apply IH; cbn in Hn; lia|].
    exfalso. clear IH. assert (length (filter f l) <= length l)%nat; [|lia]. clear. induction l as [|y l IH]; cbn; [lia|]. destruct (f y); cbn; lia.
  - intro H. f_equal. induction H; cbn; [reflexivity|]. rewrite H. cbn. congruence.
Qed.
Lemma signed_outputs : forall E key tr o st sig, env_ok E -> history E key (tr ++ [o]) st -> signature o = Some sig ->
  exists start body h, session_of INS_SIGN tr = Some (start, body) /\ sx_head (description body) = Some h /\ counts_met (description body) /\
    signed_message E start (streamed_bytes E (description body)) sig /\
    (blen (sx_outputs (description body)) = sh_outputs h <-> Forall (fun o => output_complete o = true) (sx_outputs (description body))) /\
    (blen (sx_outputs (description body)) = sh_outputs h -> signed_message E start (bytes_to_sign E (description body)) sig).
Proof.
  intros E key tr o st sig Henv H S. destruct (signed_bytes _ _ _ _ _ _ Henv H S) as (start & body & O & M & C).
  destruct (signature_consent _ _ _ _ _ _ Henv H S) as (_ & (q & f & pages & Q) & _).
  assert (exists st0, history E key tr st0) as (st0 & H0).
  { inversion H as [|tr0 s0 e outs s1 H0 _ _ _ Eq]; [destruct tr; discriminate|]. apply app_inj_tail in Eq as [-> _]. eauto. }
  destruct (final_counts _ _ _ _ _ _ _ Henv H0 Q) as (start' & body' & O' & CM). rewrite O in O'. injection O' as <- <-.
  destruct CM as (h & Hh & CM). exists start, body, h. split; [exact O|]. split; [exact Hh|]. split; [exists h; auto|]. split; [exact M|].
  destruct CM as (_ & _ & _ & _ & CM). unfold count_complete in CM.
  assert (I : blen (sx_outputs (description body)) = sh_outputs h <-> Forall (fun o => output_complete o = true) (sx_outputs (description body))).
  { rewrite <- CM, <- filter_all. split; congruence. }
  split; [exact I|]. intro B. rewrite <- (C (proj1 I B)). exact M.
Qed.

(** ** Verification *)

Section Group.
  Context {E : env} {G : Type} {zero gen : G} {add : G -> G -> G} {opp : G -> G} {enc : G -> option bytes}.
  Hypothesis C : curve E zero gen add opp enc.
  Let mul (k : N) (x : G) : G := N.iter k (add x) zero.
  Lemma mul_0 : forall x, mul 0 x = zero. Proof. reflexivity. Qed.
  Lemma mul_succ : forall k x, mul (N.succ k) x = add x (mul k x).
  Proof. intros. unfold mul. rewrite N.iter_succ. reflexivity. Qed.
  Lemma mul_add : forall a b x, mul (a + b) x = add (mul a x) (mul b x).
  Proof.
    intros a b x. induction a as [|a IH] using N.peano_ind.
    - rewrite N.add_0_l, mul_0, (cv_zero _ _ _ _ _ _ C). reflexivity.
    - rewrite N.add_succ_l, !mul_succ, IH. apply (cv_assoc _ _ _ _ _ _ C).
  Qed.
  Lemma mul_zero : forall a, mul a zero = zero.
  Proof. induction a as [|a IH] using N.peano_ind; [reflexivity|]. rewrite mul_succ, IH. apply (cv_zero _ _ _ _ _ _ C). Qed.
  Lemma mul_mul : forall a b x, mul (a * b) x = mul a (mul b x).
  Proof.
    intros a b x. induction a as [|a IH] using N.peano_ind; [reflexivity|]. rewrite N.mul_succ_l, N.add_comm, mul_add, IH, mul_succ. reflexivity.
  Qed.
  Lemma mul_mod : forall k, mul (k mod GROUP_ORDER) gen = mul k gen.
  Proof.
    intro k. rewrite (N.div_mod k GROUP_ORDER) at 2 by discriminate.
    rewrite mul_add, N.mul_comm, mul_mul. change (mul GROUP_ORDER gen) with (N.iter GROUP_ORDER (add gen) zero).
    rewrite (cv_order _ _ _ _ _ _ C), mul_zero, (cv_zero _ _ _ _ _ _ C). reflexivity.
  Qed.

  Lemma schnorr_verifies : forall secret nonce msg sig, env_ok E -> schnorr E secret nonce msg sig ->
    verifies E zero gen add opp enc (mul (be_value secret) gen) msg sig.
  Proof.
    intros secret nonce msg sig Henv (pk & w & Hpk & Hw & Hs). cbv zeta in Hs. unfold verifies. cbv zeta.
    set (c := challenge E (compressed pk) (compressed w) msg) in *.
    assert (L : length c = 24%nat). { unfold c, challenge. rewrite firstn_length, (ok_blake_len _ Henv). reflexivity. }
    assert (F1 : firstn 24 sig = c). { rewrite Hs, <- L, firstn_app, firstn_all, Nat.sub_diag, firstn_O, app_nil_r. reflexivity. }
    assert (F2 : skipn 24 sig = be_bytes 32 ((be_value nonce + be_value c * be_value secret) mod GROUP_ORDER)).
    { rewrite Hs, <- L, skipn_app, skipn_all, Nat.sub_diag. reflexivity. }
    rewrite F1, F2, be_value_be_bytes.
    2:{ eapply N.lt_trans; [apply N.mod_lt; discriminate|]. vm_compute. reflexivity. }
    exists pk, w. split; [rewrite (cv_mul _ _ _ _ _ _ C) in Hpk; exact Hpk|]. split; [|reflexivity].
    rewrite <- Hw, (cv_mul _ _ _ _ _ _ C). f_equal.
    change (add (mul ((be_value nonce + be_value c * be_value secret) mod GROUP_ORDER) gen) (opp (mul (be_value c) (mul (be_value secret) gen))) = mul (be_value nonce) gen).
    rewrite mul_mod, mul_add, mul_mul, <- (cv_assoc _ _ _ _ _ _ C), (cv_opp _ _ _ _ _ _ C), (cv_comm _ _ _ _ _ _ C). apply (cv_zero _ _ _ _ _ _ C).
  Qed.
End Group.

Lemma signature_verifies : forall E G (zero gen : G) add opp enc key tr o st sig, env_ok E -> curve E zero gen add opp enc ->
  history E key (tr ++ [o]) st -> signature o = Some sig ->
  exists start body secret, session_of INS_SIGN tr = Some (start, body) /\ session_secret E start secret /\
    verifies E zero gen add opp enc (N.iter (be_value secret) (add gen) zero) (streamed_bytes E (description body)) sig.
Proof.
  intros E G zero gen add opp enc key tr o st sig Henv C H S. destruct (signed_bytes _ _ _ _ _ _ Henv H S) as (start & body & O1 & (secret & nonce & A & _ & B) & _).
  exists start, body, secret. do 2 (split; [assumption|]). eapply (schnorr_verifies C); eauto.
Qed.

(** ** Nonces *)

Lemma scalar_range : forall k, scalar_rejected k = false <-> 0 < be_value k <= GROUP_ORDER.
Proof.
  intro k. unfold scalar_rejected. rewrite order_eq. rewrite orb_false_iff, N.eqb_neq, N.ltb_ge. split; intros [A B]; split; lia.
Qed.
Lemma nonce_range : forall E key tr o st sig, env_ok E -> history E key (tr ++ [o]) st -> signature o = Some sig ->
  exists start body secret nonce, session_of INS_SIGN tr = Some (start, body) /\
    session_secret E start secret /\ In nonce (session_nonces start) /\ schnorr E secret nonce (streamed_bytes E (description body)) sig /\
    length sig = 56%nat /\ length nonce = 32%nat /\ 0 < be_value nonce <= GROUP_ORDER /\ 0 < be_value secret <= GROUP_ORDER.
Proof.
  intros E key tr o st sig Henv H S. destruct (signed _ _ _ _ _ _ Henv H S) as (_ & _ & _ & start & body & sid & s & h & sk & ch & O1 & F & D & Fi).
  destruct (signed_schnorr _ _ _ _ _ _ _ _ _ Henv F D Fi) as (A & B & C). exists start, body, sk, (ss_key s). do 4 (split; [assumption|]).
  apply signature_inv in S as [_ S]. split; [unfold blen in S; lia|].
  destruct (fs_started _ _ _ _ _ _ F) as (p2 & data & r & f & sk' & ch' & pk & w & -> & _ & Ev & _ & _ & _ & _ & _ & C3 & _ & _ & C6 & C7 & C8 & _).
  assert (sk' = sk) by congruence. subst sk'. cbn [fst event_ok] in Ev. decompose [and] Ev. rewrite Forall_forall in *.
  split; [match goal with K : forall k, In k (r_nonces r) -> _ |- _ => apply (K _ C6) end|]. split; apply scalar_range; assumption.
Qed.
Lemma nonce_strict : forall E key tr o st sig, env_ok E -> (forall k, be_value k = GROUP_ORDER -> e_mulG E k = None) ->
  history E key (tr ++ [o]) st -> signature o = Some sig ->
  exists start body secret nonce, session_of INS_SIGN tr = Some (start, body) /\
    session_secret E start secret /\ In nonce (session_nonces start) /\ schnorr E secret nonce (streamed_bytes E (description body)) sig /\
    0 < be_value nonce < GROUP_ORDER /\ 0 < be_value secret < GROUP_ORDER.
Proof.
  intros E key tr o st sig Henv Hinf H S. destruct (nonce_range _ _ _ _ _ _ Henv H S) as (start & body & secret & nonce & A & B & C & D & _ & _ & N1 & N2).
  exists start, body, secret, nonce. do 4 (split; [assumption|]). destruct D as (pk & w & D1 & D2 & _).
  split.
  - destruct (N.eq_dec (be_value nonce) GROUP_ORDER) as [K|K]; [rewrite (Hinf _ K) in D2; discriminate|lia].
  - destruct (N.eq_dec (be_value secret) GROUP_ORDER) as [K|K]; [rewrite (Hinf _ K) in D1; discriminate|lia].
Qed.
Lemma equation_verifies : forall E G (zero gen : G) add opp enc secret nonce msg sig, env_ok E -> curve E zero gen add opp enc ->
  schnorr E secret nonce msg sig -> verifies E zero gen add opp enc (N.iter (be_value secret) (add gen) zero) msg sig.
Proof. intros. eapply schnorr_verifies; eauto. Qed.
Lemma nonces_apart : forall E key tr1 o1 tr2 o2 st sig1 sig2, env_ok E ->
  history E key (tr1 ++ o1 :: tr2 ++ [o2]) st -> signature o1 = Some sig1 -> signature o2 = Some sig2 ->
  exists pre1 start1 body1 secret1 nonce1 pre2 start2 body2 secret2 nonce2,
    tr1 = pre1 ++ start1 :: body1 /\ tr2 = pre2 ++ start2 :: body2 /\
    In nonce1 (session_nonces start1) /\ schnorr E secret1 nonce1 (streamed_bytes E (description body1)) sig1 /\
    In nonce2 (session_nonces start2) /\ schnorr E secret2 nonce2 (streamed_bytes E (description body2)) sig2.
Proof.
  intros E key tr1 o1 tr2 o2 st sig1 sig2 Henv H S1 S2.
  assert (H1 : exists st1, history E key (tr1 ++ [o1]) st1).
  { apply (history_prefix E key (tr1 ++ [o1]) (tr2 ++ [o2]) st). rewrite <- app_assoc. exact H. }
  destruct H1 as [st1 H1]. destruct (nonce_range _ _ _ _ _ _ Henv H1 S1) as (start1 & body1 & sec1 & n1 & A1 & _ & B1 & C1 & _).
  destruct (two_signatures _ _ _ _ _ _ _ _ _ Henv H S1 S2) as (a & x & b & sid & T & X & _).
  rewrite app_comm_cons, app_assoc in H. destruct (nonce_range _ _ _ _ _ _ Henv H S2) as (start2 & body2 & sec2 & n2 & A2 & _ & B2 & C2 & _).
  destruct (session_suffix _ _ _ _ A1) as (pre1 & P1 & _).
  destruct (start_or_none INS_SIGN tr2) as [F|(c & y & d & T' & Y & F)].
  - exfalso. rewrite Forall_forall in F. rewrite (F x) in X; [discriminate|]. rewrite T. apply in_or_app. right. left. reflexivity.
  - rewrite T' in A2. rewrite app_comm_cons, app_assoc, (session_after _ _ _ _ Y F) in A2. injection A2 as <- <-.
    exists pre1, start1, body1, sec1, n1, c, y, d, sec2, n2. auto 10.
Qed.
Lemma order_passes : exists k, length k = 32%nat /\ scalar_rejected k = false /\ ~ be_value k < GROUP_ORDER.
Proof. exists (be_bytes 32 GROUP_ORDER). split; [vm_compute; reflexivity|]. split; [vm_compute; reflexivity|]. vm_compute. discriminate. Qed.
(** Approving the final screen clears the context, whatever the answer. *)
Lemma final_wipes : forall E key tr st q f pages, env_ok E -> history E key tr st -> on_screen tr = Some (q, U_STX_TX, f, pages) ->
  exists st' outs, step E st UiApprove = (st', outs) /\ cleared st' /\
    ((exists sig, outs = [OResp sig SW_OK] /\ signature (UiApprove, outs) = Some sig) \/ outs = [OResp [] SW_SCHNORR_SIGNING_FAILED]).
Proof.
  intros E key tr st q f pages Henv H Q.
  destruct (paged_session _ _ _ _ _ _ _ _ Henv H Q (or_intror eq_refl)) as (g & start & body & s & X1 & X2 & X3 & X4 & X5 & X6 & X7 & X8 & X9 & X10 & X11).
  unfold sign_phase in X8. rewrite X2 in X8. destruct X8 as (_ & h & W & ((F1 & F2 & F3) & F4 & F5 & F6 & F7 & F8) & S).
  cbn [step]. unfold ui_action. rewrite X3, X1. unfold ui_action_stx_tx. eexists. eexists. split; [reflexivity|]. split; [split; reflexivity|].
  destruct X5 as (p2 & data & r & ff & sk & ch & pk & w & _ & _ & _ & _ & _ & _ & _ & _ & C3 & _).
  unfold p2pk_send_response. rewrite F4, F2, C3. destruct (schnorr_sign_finish E (op_hash (sg_op g)) sk (op_key (sg_op g))) as [sig|] eqn:Fi.
  - left. exists sig. split; [reflexivity|]. apply finish_size in Fi; [|exact Henv]. unfold signature. cbn [snd]. rewrite Fi. reflexivity.
  - right. reflexivity.
Qed.

(** ** The toy curve *)

Definition zn : Type := {x : N | (x <? GROUP_ORDER) = true}.
Definition zn_of (x : N) : zn := exist _ (x mod GROUP_ORDER) (proj2 (N.ltb_lt _ _) (N.mod_lt x GROUP_ORDER ltac:(discriminate))).
Definition zn_add (x y : zn) : zn := zn_of (proj1_sig x + proj1_sig y).
Definition zn_opp (x : zn) : zn := zn_of (GROUP_ORDER - proj1_sig x).
Definition zn_enc (x : zn) : option bytes := toy_point (proj1_sig x).
Lemma zn_eq : forall x y : zn, proj1_sig x = proj1_sig y -> x = y.
Proof. intros [x p] [y q] H. cbn in H. subst y. f_equal. apply Eqdep_dec.UIP_dec. decide equality. Qed.
Lemma zn_lt : forall x : zn, proj1_sig x < GROUP_ORDER.
Proof. intros [x p]. apply N.ltb_lt. exact p. Qed.
Lemma zn_small : forall x : zn, proj1_sig x mod GROUP_ORDER = proj1_sig x.
Proof. intro x. apply N.mod_small, zn_lt. Qed.
Lemma order_nz : GROUP_ORDER <> 0. Proof. discriminate. Qed.
Lemma zn_iter : forall k, proj1_sig (N.iter k (zn_add (zn_of 1)) (zn_of 0)) = k mod GROUP_ORDER.
Proof.
  intro k. induction k as [|k IH] using N.peano_ind; [reflexivity|]. rewrite N.iter_succ.
  set (y := N.iter k (zn_add (zn_of 1)) (zn_of 0)) in *. change (proj1_sig (zn_add (zn_of 1) y)) with ((1 mod GROUP_ORDER + proj1_sig y) mod GROUP_ORDER).
  rewrite IH, <- N.add_mod by apply order_nz. f_equal. lia.
Qed.
Lemma toy_curve : curve toy (zn_of 0) (zn_of 1) zn_add zn_opp zn_enc.
Proof.
  constructor.
  - intros x y z. apply zn_eq. unfold zn_add, zn_of. cbn [proj1_sig]. rewrite N.add_mod_idemp_r, N.add_mod_idemp_l by apply order_nz. f_equal. lia.
  - intros x y. apply zn_eq. unfold zn_add, zn_of. cbn [proj1_sig]. f_equal. lia.
  - intros x. apply zn_eq. unfold zn_add, zn_of. cbn [proj1_sig]. rewrite N.mod_0_l, N.add_0_l by apply order_nz. apply zn_small.
  - intros x. apply zn_eq. unfold zn_add, zn_opp, zn_of. cbn [proj1_sig]. rewrite N.add_mod_idemp_r by apply order_nz.
    pose proof (zn_lt x). replace (proj1_sig x + (GROUP_ORDER - proj1_sig x)) with GROUP_ORDER by lia. reflexivity.
  - apply zn_eq. rewrite zn_iter. reflexivity.
  - intro k. unfold zn_enc. rewrite zn_iter. cbn [e_mulG toy]. unfold toy_point. cbv zeta. rewrite <- order_eq, N.mod_mod by apply order_nz. reflexivity.
Qed.

(** ** A signature over an output nobody saw *)

Definition THEFT_TX : s_tx := match session_of INS_SIGN (removelast (trace THEFT)) with Some (_, b) => description b | None => s_empty end.
Definition STOLEN_TX : s_tx := mk_stx (sx_head THEFT_TX) (sx_tokens THEFT_TX) (sx_inputs THEFT_TX) (sx_data THEFT_TX) [STOLEN].
Lemma theft : exists E key tr o st sig start body d, env_ok E /\ history E key (tr ++ [o]) st /\ signature o = Some sig /\
  session_of INS_SIGN tr = Some (start, body) /\ signed_message E start (bytes_to_sign E d) sig /\
  counts_met d /\ sx_head d = sx_head (description body) /\ sx_inputs d = sx_inputs (description body) /\
  sx_outputs d = [STOLEN] /\
  forall x, In x (sx_outputs (description body)) -> output_complete x = true -> so_dest x = Some (SD_TREE OTHER_TREE).
Proof.
  set (t := trace THEFT). set (d0 := (BadApdu, []) : obs).
  assert (P : playable THEFT = true) by (vm_compute; reflexivity).
  pose proof (trace_history _ P) as H. fold t in H.
  rewrite (app_removelast_last d0) in H by (vm_compute; discriminate).
  destruct (signature (last t d0)) as [sig|] eqn:S; [|vm_compute in S; discriminate S].
  destruct (signed_bytes _ _ _ _ _ _ toy_ok H S) as (start & body & O & M & _).
  assert (D : description body = THEFT_TX) by (unfold THEFT_TX; fold t; rewrite O; reflexivity).
  exists toy, TOY_KEY, (removelast t), (last t d0), (final THEFT), sig, start, body, STOLEN_TX. rewrite D in *.
  split; [exact toy_ok|]. do 3 (split; [assumption|]). split.
  { replace (bytes_to_sign toy STOLEN_TX) with (streamed_bytes toy THEFT_TX) by (vm_compute; reflexivity). exact M. }
  split.
  { exists (mk_sh 1 0 1 1). split; [vm_compute; reflexivity|]. split.
    - apply Forall_forall. intros i Hi. revert i Hi. apply forallb_forall. vm_compute. reflexivity.
    - do 3 (split; [vm_compute; reflexivity|]). vm_compute. reflexivity. }
  do 3 (split; [reflexivity|]).
  intros x Hx Hc. assert (F : forallb (fun x => negb (output_complete x) || match so_dest x with Some (SD_TREE t) => bytes_eqb t OTHER_TREE | _ => false end) (sx_outputs THEFT_TX) = true) by (vm_compute; reflexivity).
  rewrite forallb_forall in F. specialize (F x Hx). rewrite Hc in F. cbn [negb orb] in F. destruct (so_dest x) as [[u| |]|]; try discriminate F.
  apply bytes_eqb_eq in F. subst u. reflexivity.
Qed.

Lemma toy_infinity : forall k, be_value k = GROUP_ORDER -> e_mulG toy k = None.
Proof. intros k H. cbn [e_mulG toy]. rewrite H. vm_compute. reflexivity. Qed.
