(** The pages of the signing screens, at any moment of a history at which they are up. *)
From Coq Require Import String.
From Verif Require Import Lib Env Bip32 Address ErgoTree Schnorr TxTable TxBox TxFull Amounts OutputInfo UiFlow P2pkOp App
  SpecTree SpecTrace SpecTx SpecApdu SpecAmounts SpecScreen SpecPages Moves SignInv SignInput SignOutput SignRest SignShow
  TraceSign TraceAttest TraceScreen PageProofs.

#[local] Arguments N.eqb : simpl never.
#[local] Arguments N.ltb : simpl never.
#[local] Arguments N.leb : simpl never.
#[local] Arguments N.sub : simpl never.
#[local] Arguments blen : simpl never.
#[local] Arguments num : simpl never.
#[local] Arguments slice : simpl never.

Lemma screen_state : forall E key tr st e k f pages, env_ok E -> history E key tr st ->
  on_screen tr = Some (e, k, f, pages) -> st_busy st = true /\ st_ui st = k /\ st_flow st = f /\ asked E st e pages.
Proof.
  intros E key tr st e k f pages Henv H Ho. destruct (screen_inv_holds E key tr st Henv H) as [_ S].
  destruct (st_busy st); [|congruence]. destruct S as (e' & pages' & S1 & S2). rewrite Ho in S1. injection S1 as -> -> -> ->. auto.
Qed.
Lemma screen_idle_state : forall E key tr st, env_ok E -> history E key tr st -> on_screen tr = None -> st_busy st = false.
Proof.
  intros E key tr st Henv H Ho. destruct (screen_inv_holds E key tr st Henv H) as [_ S].
  destruct (st_busy st); [|reflexivity]. destruct S as (e' & pages' & S1 & S2). congruence.
Qed.

Lemma supported_small : forall n, network_id_is_supported n = true -> n = 0 \/ n = 0x10.
Proof.
  intros n H. unfold network_id_is_supported, network_id_is_mainnet, network_id_is_testnet in H.
  apply orb_true_iff in H as [H|H]; apply N.eqb_eq in H; auto.
Qed.

(** The signing session behind one of its paged screens. *)
Lemma paged_session : forall E key tr st e k f pages, env_ok E -> history E key tr st ->
  on_screen tr = Some (e, k, f, pages) -> k = U_STX_OUTPUT \/ k = U_STX_TX ->
  exists g start body s, st_ctx st = X_SIGN g /\ sg_state g = SG_APPROVED /\ st_ui st = k /\
    session_of INS_SIGN tr = Some (start, body) /\ sign_started E start s (sg_session g) /\
    Forall (keeps INS_SIGN (sg_session g)) body /\ approved_in INS_SIGN (sg_session g) body /\
    sign_phase E s body g k /\ tx_bytes_ok (description body) /\
    pages = pages_of E k (X_SIGN g) (page_count k (sg_op g)) /\
    f = paged_flow (str (match k with U_STX_TX => "Approve Signing" | _ => "Confirm Output" end)).
Proof.
  intros E key tr st e k f pages Henv H Ho Hk. destruct (screen_state _ _ _ _ _ _ _ _ Henv H Ho) as (B & U & F & A).
  pose proof (history_shape _ _ _ _ H) as Sh. destruct (sign_inv_holds E key tr st Henv H) as [_ I].
  assert (X : exists g, st_ctx st = X_SIGN g /\ sg_state g = SG_APPROVED).
  { unfold shape in Sh. destruct (st_ctx st) as [|x|x|x|g].
    - destruct Sh as (S1 & _). congruence.
    - destruct Sh as (_ & S1 & _). destruct Hk; congruence.
    - destruct Sh as (_ & S1 & _). destruct Hk; congruence.
    - destruct Sh as (_ & S1). destruct (at_state x); destruct S1 as [S1 S2]; destruct Hk; congruence.
    - exists g. split; [reflexivity|]. destruct Sh as (_ & Sh). destruct (sg_state g); [|reflexivity].
      destruct Sh as (_ & S1 & _). destruct Hk; congruence. }
  destruct X as (g & Xg & Xs). rewrite Xg in I. destruct I as (start & body & s & I1 & I2 & I3 & I4).
  destruct (session_bytes_ok _ _ _ _ _ _ H I1) as [Bt _].
  exists g, start, body, s. rewrite U in I4. do 6 (split; [assumption|]).
  split; [unfold sign_phase in I4; rewrite Xs in I4; destruct I4 as [I4 _]; exact I4|]. do 2 (split; [assumption|]).
  destruct A as (_ & A). rewrite Xg, Xs in A. destruct A as (sub & data & r & _ & _ & _ & A1 & _ & A2 & A3).
  rewrite U in *. rewrite A3 in A1. split; [exact A1|]. congruence.
Qed.

Lemma started_data : forall E start s sid, sign_started E start s sid ->
  ss_path s = start_path (start_data start) /\ ss_network s = start_network (start_data start).
Proof. intros E start s sid (p2 & data & r & f & sk & ch & pk & w & -> & _ & _ & A & B & _). auto. Qed.

Lemma shown_output : forall E key tr st e f pages, env_ok E -> history E key tr st ->
  on_screen tr = Some (e, U_STX_OUTPUT, f, pages) ->
  exists start body pre o, session_of INS_SIGN tr = Some (start, body) /\
    sx_outputs (description body) = pre ++ [o] /\ output_complete o = true /\
    output_pages E (start_network (start_data start)) (description body) o pages.
Proof.
  intros E key tr st e f pages Henv H Ho.
  destruct (paged_session _ _ _ _ _ _ _ _ Henv H Ho (or_introl eq_refl)) as (g & start & body & s & X1 & X2 & X3 & X4 & X5 & X6 & X7 & X8 & X9 & X10 & X11).
  unfold sign_phase in X8. rewrite X2 in X8. destruct X8 as (_ & h & W & T & (pre & o & Hout & _ & _ & _ & Hc & _)).
  exists start, body, pre, o. do 3 (split; [assumption|]). destruct (started_data _ _ _ _ X5) as [_ <-]. rewrite X10.
  eapply output_pages_ok; eauto. destruct X5 as (p2 & data & r & ff & sk & ch & pk & w & _ & _ & _ & _ & _ & _ & _ & Hs & _).
  apply supported_small in Hs as [-> | ->]; lia.
Qed.

Lemma shown_confirm : forall E key tr st e f pages, env_ok E -> history E key tr st ->
  on_screen tr = Some (e, U_STX_TX, f, pages) ->
  exists start body, session_of INS_SIGN tr = Some (start, body) /\
    confirm_pages E (start_path (start_data start)) (description body) pages.
Proof.
  intros E key tr st e f pages Henv H Ho.
  destruct (paged_session _ _ _ _ _ _ _ _ Henv H Ho (or_intror eq_refl)) as (g & start & body & s & X1 & X2 & X3 & X4 & X5 & X6 & X7 & X8 & X9 & X10 & X11).
  unfold sign_phase in X8. rewrite X2 in X8. destruct X8 as (_ & h & W & ((_ & Hp & _) & _ & _ & Ha & _) & _).
  exists start, body. split; [assumption|]. destruct (started_data _ _ _ _ X5) as [<- _]. rewrite X10, <- Hp.
  destruct X5 as (p2 & data & r & ff & sk & ch & pk & w & -> & _ & Hev & Hpath & _ & Hv & Hl & _).
  eapply confirm_pages_ok; eauto; try (rewrite Hp; assumption). rewrite Hp, Hpath. apply path_at_ok. apply Hev.
Qed.
