(** Histories with failing calls: reachable states are in range, and every history has a
    counterpart without failures. *)
From Coq Require Import String.
From Verif Require Import Lib Base CodecProofs Env Bip32 Base58 Address ErgoTree Schnorr RwBuffer SpecBuffer RwBufferProofs TxTable TxBox TxInput TxFull
  Amounts OutputInfo Format InputFrame UiFlow P2pkOp App SpecTrace SpecTx SpecSign SpecScreen Moves BoxProofs SignInv SignShow TraceSign TraceAttest TraceScreen
  SignedProofs SessionProofs Toy
  Fault LowTx LowOp LowApp SpecFault LowTxProofs LowOpProofs LowProofs.

#[local] Arguments N.eqb : simpl never.
#[local] Arguments N.ltb : simpl never.
#[local] Arguments N.leb : simpl never.
#[local] Arguments N.sub : simpl never.
#[local] Arguments blen : simpl never.
#[local] Arguments app : simpl never.

(** * Ranges *)
Lemma box_in_range : forall g, gwf g -> bx_height (gstate g) < two32 /\ bx_tokens_count (gstate g) < two8.
Proof. intros g H. pose proof (gw_height g H). pose proof (gw_ntok g H). cbn [gstate bx_height bx_tokens_count]. unfold two8. lia. Qed.

Lemma last_of_in : forall A (l : list A) x, last_of l = Some x -> In x l.
Proof.
  intros A l x H. destruct l as [|y l] using rev_ind; [discriminate|]. rewrite last_of_snoc in H.
  apply in_or_app. right. left. congruence.
Qed.
Lemma full_in_range : forall E d h, wf E d h -> full_range (full_of E d h).
Proof.
  intros E d h H. pose proof (w_inputs _ _ _ H). pose proof (w_data _ _ _ H). pose proof (w_outputs _ _ _ H). pose proof (w_tokens _ _ _ H).
  unfold full_range, full_of. cbn [fl_inputs_count fl_data_inputs_count fl_outputs_count fl_distinct fl_union].
  assert (two16 < two32) by reflexivity. assert (20 < two32) by reflexivity.
  split; [lia|]. split; [lia|]. split; [lia|]. split; [lia|]. unfold union_of.
  destruct (last_of (sx_outputs d)) as [o|] eqn:L.
  - apply box_in_range. pose proof (w_out_wf _ _ _ H) as K. rewrite Forall_forall in K. exact (ow_g _ _ _ (K o (last_of_in _ _ _ L))).
  - destruct (last_of (sx_inputs d)); [exact I|]. destruct (tokens_in d h); exact I.
Qed.
Lemma type_in_range : forall E o, env_ok E -> type_range (out_type_of E o).
Proof.
  intros E o HE. unfold out_type_of. destruct (so_dest o) as [[t| |p]|]; try exact I. unfold tree_type.
  destruct (tree_complete o); [|exact I].
  assert (type_range (script_type E o t)) as Hs.
  { unfold script_type. destruct (output_complete o); [|exact I]. cbn. apply (ok_blake_len E HE). }
  assert (type_range (oi_type (classify_first_chunk (output_info_init 0) t true))) as Hc.
  { unfold classify_first_chunk. rewrite !andb_true_r.
    assert (forall l, type_range (oi_type (oi_set_type l (OT_SCRIPT [])))) as Hd by (intros; exact I).
    destruct (Nat.eqb_spec (length t) ERGO_TREE_P2PK_LEN) as [L|_].
    - destruct (ergo_tree_parse_p2pk t) as [pk|] eqn:P.
      + unfold ergo_tree_parse_p2pk in P. destruct (negb _); [discriminate|]. destruct (_ && _); [discriminate|]. assert (pk = firstn 33 (skipn 3 t)) as -> by congruence.
        cbn [oi_type oi_set_tree_set oi_set_type type_range].
        rewrite firstn_length_le; [reflexivity|]. rewrite skipn_length, L. unfold ERGO_TREE_P2PK_LEN. lia.
      + destruct (Nat.eqb_spec (length t) ERGO_TREE_P2SH_LEN) as [L'|_]; [|apply Hd]. rewrite L in L'. discriminate.
    - destruct (Nat.eqb_spec (length t) ERGO_TREE_P2SH_LEN) as [L|_]; [|apply Hd].
      destruct (ergo_tree_parse_p2sh t) as [h|] eqn:P; [|apply Hd].
      unfold ergo_tree_parse_p2sh in P. destruct (negb _); [discriminate|]. destruct (negb _); [discriminate|]. assert (h = firstn 24 (skipn 17 t)) as -> by congruence.
      cbn [oi_type oi_set_tree_set oi_set_type type_range].
      rewrite firstn_length_le; [reflexivity|]. rewrite skipn_length, L. unfold ERGO_TREE_P2SH_LEN. lia. }
  destruct (oi_type (classify_first_chunk (output_info_init 0) t true)); assumption.
Qed.

Lemma tx_in_range : forall E s d h op, env_ok E -> wf E d h -> op_tx E s d h op ->
  op_range op /\ match op_union_of op with OU_TX t => info_range (tx_output t) | _ => True end.
Proof.
  intros E s d h op HE W (_ & _ & _ & _ & oi & Hl & Hu). unfold op_range. rewrite Hu. cbn [tx_full tx_output]. split; [apply full_in_range; exact W|].
  unfold last_info in Hl. destruct (last_of (sx_outputs d)) as [o|]; [|subst oi; exact I].
  destruct Hl as (x & -> & R). cbn [info_range]. rewrite (ri_type _ _ _ _ R). apply type_in_range. exact HE.
Qed.
Lemma other_in_range : forall op, (exists t, op_union_of op = OU_APPROVE t) \/ op_union_of op = OU_CONFIRM ->
  op_range op /\ match op_union_of op with OU_TX t => info_range (tx_output t) | _ => True end.
Proof. intros op [[t H]|H]; unfold op_range; rewrite H; split; exact I. Qed.

Lemma reachable_range : forall E key tr st, env_ok E -> history E key tr st -> st_range E st.
Proof.
  intros E key tr st HE H. pose proof (history_shape _ _ _ _ H) as Hsh. unfold st_range. destruct (st_ctx st) as [|c|c|c|g] eqn:X; [exact I| | | |].
  - destruct (screen_inv_holds _ _ _ _ HE H) as [_ K]. unfold shape in Hsh. rewrite X in Hsh. destruct Hsh as [B _]. rewrite B in K.
    destruct K as (e & pages & _ & _ & A). rewrite X in A. destruct A as (p1 & data & r & s & _ & _ & _ & _ & G & _). eapply generate_len; eassumption.
  - destruct (screen_inv_holds _ _ _ _ HE H) as [_ K]. unfold shape in Hsh. rewrite X in Hsh. destruct Hsh as [B _]. rewrite B in K.
    destruct K as (e & pages & _ & _ & A). rewrite X in A. destruct A as (p1 & p2 & data & r & pk & ch & f & _ & _ & _ & _ & _ & G & A & _).
    eapply address_len; [exact HE|exact A|]. destruct (generate_len E HE _ _ _ G). lia.
  - destruct (attest_inv_holds _ _ _ _ HE H) as [_ K]. rewrite X in K. destruct K as (start & body & _ & _ & _ & K). unfold attest_phase in K. cbv zeta in K.
    split; intros Es; rewrite Es in K.
    + destruct K as [_ (W & _ & -> & Hb)]. split; [exact (sw_index _ W)|]. unfold box_range. rewrite Hb. apply (box_in_range _ (sw_g _ W)).
    + destruct K as (_ & W & _ & -> & -> & _). split; [apply (ok_blake_len E HE)|]. split.
      * pose proof (gw_toks _ (sw_g _ W)) as A. pose proof (gw_ntok _ (sw_g _ W)) as B. cbn [g_att g_toks] in A. rewrite blen_map in A. lia.
      * eapply Forall_impl; [|exact (sw_tokens _ W)]. intros t [L _]. exact L.
  - destruct (sign_inv_holds _ _ _ _ HE H) as [_ K]. rewrite X in K. destruct K as (start & body & s & _ & St & _ & K).
    assert (ss_network s < two8) as Hn.
    { destruct St as (p2 & data & r & f & sk & ch & pk & w & _ & _ & _ & _ & _ & _ & _ & Hs & _). unfold network_id_is_supported in Hs.
      apply orb_true_iff in Hs as [Hs|Hs]; apply N.eqb_eq in Hs; rewrite Hs; reflexivity. }
    assert ((op_range (sg_op g) /\ match op_union_of (sg_op g) with OU_TX t => info_range (tx_output t) | _ => True end) /\ op_fixed s (sg_op g)) as [[A B] F].
    { unfold sign_phase in K. cbv zeta in K.
      assert (streaming E s (description body) (sg_op g) -> (op_range (sg_op g) /\ match op_union_of (sg_op g) with OU_TX t => info_range (tx_output t) | _ => True end) /\ op_fixed s (sg_op g)) as Hst.
      { intros [(_ & Fx & _ & _ & _ & U)|(h & W & T & _)].
        - split; [apply other_in_range; left; exact U|exact Fx].
        - split; [eapply tx_in_range; eassumption|exact (proj1 T)]. }
      destruct (sg_state g).
      - destruct K as (_ & (Fx & _ & _ & _ & U) & _). split; [apply other_in_range; left; exact U|exact Fx].
      - destruct K as [_ K]. destruct (st_ui st); try (apply Hst; exact K).
        + destruct K as (h & W & T & _). split; [eapply tx_in_range; eassumption|exact (proj1 T)].
        + destruct K as (h & W & (Fx & _ & _ & _ & U & _) & _). split; [apply other_in_range; right; exact U|exact Fx]. }
    split; [exact A|]. split; [|exact B]. destruct F as (_ & _ & ->). exact Hn.
Qed.

(** * Histories *)
Lemma redrawn_ok : forall l l', redrawn l l' -> Forall (fun k => length k = 32%nat /\ bytes_ok k = true) l ->
  Forall (fun k => length k = 32%nat /\ bytes_ok k = true) l'.
Proof.
  induction 1 as [l|x l l' H IH|x l l' H IH|l l' H IH]; intros K; [exact K| | |].
  - inversion K; subst. constructor; auto.
  - inversion K; subst. constructor; [split; reflexivity|auto].
  - constructor; [split; reflexivity|auto].
Qed.
Lemma same_event_ok : forall e e', same_event e e' -> event_ok e -> event_ok e'.
Proof.
  intros e e' [x|cla ins p1 p2 data l l' ids R] H; [exact H|]. unfold event_ok in *. cbn [r_nonces r_ids] in *.
  destruct H as (H1 & H2 & H3 & H4 & H5 & H6 & H7 & H8). do 6 (split; [assumption|]). split; [|exact H8]. eapply redrawn_ok; eassumption.
Qed.
Lemma resp_diverges : forall b s, ~ In ODiverge [OResp b s].
Proof. intros b s [K|[]]. discriminate. Qed.

Lemma shadow_history : forall E key tr st, env_ok E -> fhistory E key tr st ->
  exists tr', Forall2 shadow tr tr' /\ history E key tr' st.
Proof.
  intros E key tr st HE H. induction H as [|tr st F e outs st' H IH HF HM He Hs Hd].
  - exists []. split; constructor.
  - destruct IH as (tr' & Hsh & Hh).
    destruct (fstep_cases E F HE HF HM st e He (history_shape _ _ _ _ Hh) (reachable_range _ _ _ _ HE Hh)) as [W|Fl].
    + destruct W as (e' & Se & Sc & Ke). rewrite Hs in Ke. exists (tr' ++ [(e', outs)]). split.
      * apply Forall2_app; [exact Hsh|]. constructor; [|constructor]. apply shadow_same; assumption.
      * eapply history_step; [exact Hh|eapply same_event_ok; eassumption|symmetry; exact Ke|exact Hd].
    + destruct Fl as (Hc & s & e' & s' & Fs & Ko & Ke & Kst & Ns & _). rewrite Hs in *. cbn [fst snd] in *. subst outs.
      exists (tr' ++ [(e', [OResp [] s'])]). split.
      * apply Forall2_app; [exact Hsh|]. constructor; [|constructor]. apply shadow_refused; assumption.
      * eapply history_step; [exact Hh|exact Ke|exact Kst|apply resp_diverges].
Qed.

Lemma failure_reported : forall E key tr st F e st' outs, env_ok E -> fhistory E key tr st -> stack_ok F -> hmac_works F -> event_ok e ->
  fstep E F st e = (st', outs) ->
  (exists e', same_event e e' /\ (e' = e \/ call_failed F) /\ step E st e' = (st', outs)) \/
  (call_failed F /\ (exists s, fault_status s /\ outs = [OResp [] s]) /\ dropped st st').
Proof.
  intros E key tr st F e st' outs HE H HF HM He Hs. destruct (shadow_history _ _ _ _ HE H) as (tr' & _ & Hh).
  destruct (fstep_cases E F HE HF HM st e He (history_shape _ _ _ _ Hh) (reachable_range _ _ _ _ HE Hh)) as [W|Fl].
  - left. destruct W as (e' & Se & Sc & Ke). exists e'. rewrite Hs in Ke. auto.
  - right. destruct Fl as (Hc & s & e' & s' & Fs & Ko & _ & _ & _ & D & _). rewrite Hs in *. cbn [fst snd] in *. eauto.
Qed.
Lemma no_failure : forall E key tr st F e, env_ok E -> fhistory E key tr st -> stack_ok F -> hmac_works F -> event_ok e ->
  ~ call_failed F -> fstep E F st e = step E st e.
Proof.
  intros E key tr st F e HE H HF HM He Hn. destruct (fstep E F st e) as [st' outs] eqn:S1.
  destruct (failure_reported _ _ _ _ _ _ _ _ HE H HF HM He S1) as [(e' & _ & [->|K] & Ke)|(K & _)]; [symmetry; exact Ke|contradiction|contradiction].
Qed.

Lemma Forall2_snoc_l : forall A B (R : A -> B -> Prop) l x l', Forall2 R (l ++ [x]) l' -> exists m y, l' = m ++ [y] /\ Forall2 R l m /\ R x y.
Proof.
  intros A B R l x l' H. apply Forall2_app_inv_l in H as (m & n & H1 & H2 & ->). inversion H2 as [|? y ? ? Hy Hn]; subst. inversion Hn; subst. eauto.
Qed.
Lemma fault_not_ok : forall s, fault_status s -> s <> SW_OK.
Proof. intros s [->|[->|[->| ->]]]; discriminate. Qed.
Lemma signature_refused : forall e s, fault_status s -> signature (e, [OResp [] s]) = None.
Proof. intros e s [->|[->|[->| ->]]]; reflexivity. Qed.

Lemma signed_despite : forall E key tr F o st sig, env_ok E -> fhistory E key (tr ++ [(F, o)]) st -> signature o = Some sig ->
  fst o = UiApprove /\
  exists tr' start body sid, Forall2 shadow tr tr' /\ session_of INS_SIGN tr' = Some (start, body) /\
    approved_in INS_SIGN sid body /\ (exists q f pages, on_screen tr' = Some (q, U_STX_TX, f, pages)) /\
    signed_message E start (streamed_bytes E (description body)) sig.
Proof.
  intros E key tr F o st sig HE H Hg. destruct (shadow_history _ _ _ _ HE H) as (tr' & Hsh & Hh).
  apply Forall2_snoc_l in Hsh as (m & o' & -> & Hm & Ho).
  inversion Ho as [F0 e e' outs Se Sc E1 E2|F0 e e' s s' Hc Fs Ns E1 E2]; subst.
  - assert (signature (e', outs) = Some sig) as Hg' by exact Hg.
    destruct (signature_consent _ _ _ _ _ _ HE Hh Hg') as (A & B & start & body & sid & C & D & _).
    destruct (signed_bytes _ _ _ _ _ _ HE Hh Hg') as (start' & body' & C' & M & _).
    assert (start' = start /\ body' = body) as [-> ->] by (split; congruence).
    split; [cbn in *; subst e'; inversion Se; reflexivity|]. exists m, start, body, sid. auto.
  - rewrite signature_refused in Hg by assumption. discriminate.
Qed.

(** * HMAC *)
Definition quiet_faults (hmac : bytes -> bytes -> option bytes) : faults :=
  mk_faults false (fun _ _ _ => None) (fun _ _ => false) (fun _ => false) false false (fun _ => None) false hmac
            (fun n => repeat 0xEE (N.to_nat n)).
Lemma quiet_stack : forall h, stack_ok (quiet_faults h).
Proof. intros h n. cbn [quiet_faults f_stack]. unfold blen. rewrite repeat_length. apply N2Nat.id. Qed.
Lemma quiet_calls : forall h, ~ call_failed (quiet_faults h).
Proof. intros h H. destruct H; discriminate. Qed.

(** * Runs of sample events *)
Fixpoint fplay (E : env) (st : state) (l : list (faults * event)) : option (list (faults * obs) * state) :=
  match l with
  | [] => Some ([], st)
  | (F, e) :: t =>
      let '(st', outs) := fstep E F st e in
      if event_okb e && halts outs then
        match fplay E st' t with Some (tr, s) => Some ((F, (e, outs)) :: tr, s) | None => None end
      else None
  end.
Lemma fplay_more : forall E key l tr st tr' st', Forall (fun x => stack_ok (fst x) /\ hmac_works (fst x)) l ->
  fhistory E key tr st -> fplay E st l = Some (tr', st') -> fhistory E key (tr ++ tr') st'.
Proof.
  induction l as [|[F e] l IH]; intros tr st tr' st' HF H P; cbn [fplay] in P.
  - assert ([] = tr' /\ st = st') as [<- <-] by (split; congruence). rewrite app_nil_r. exact H.
  - inversion HF as [|? ? [HF1 HF2] HF']; subst. cbn [fst] in *. destruct (fstep E F st e) as [s1 outs] eqn:Es. destruct (event_okb e && halts outs) eqn:Ec; [|discriminate].
    apply andb_true_iff in Ec as [C1 C2]. destruct (fplay E s1 l) as [[t s]|] eqn:Ep; [|discriminate].
    assert ((F, (e, outs)) :: t = tr' /\ s = st') as [<- <-] by (split; congruence).
    change ((F, (e, outs)) :: t) with ([(F, (e, outs))] ++ t). rewrite app_assoc. eapply (IH _ s1); [exact HF'| |exact Ep].
    econstructor; eauto; [apply event_okb_ok; exact C1|apply halts_ok; exact C2].
Qed.
Lemma fplay_fhistory : forall E key l tr st, Forall (fun x => stack_ok (fst x) /\ hmac_works (fst x)) l ->
  fplay E (init key) l = Some (tr, st) -> fhistory E key tr st.
Proof. intros E key l tr st HF P. apply (fplay_more E key l [] (init key)); [exact HF|constructor|exact P]. Qed.
