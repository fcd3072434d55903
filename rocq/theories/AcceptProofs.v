(** Exactly when a command of an open signing session is accepted. *)
From Verif Require Import Lib Env Bip32 ErgoTree UiFlow P2pkOp App SpecTree SpecTrace SpecTx SpecAmounts SpecApdu SpecScreen SpecRequest SpecDispatch
  SpecSign SpecRules SpecAccept Moves SignInv SignInput SignOutput SignRest SignShow TraceSign TraceAttest TraceScreen TraceShow TraceUb DispatchProofs
  FlowProofs RequestProofs SessionProofs AcceptInput AcceptFrame AcceptOutput.

#[local] Arguments N.eqb : simpl never.
#[local] Arguments N.ltb : simpl never.
#[local] Arguments N.leb : simpl never.
#[local] Arguments N.sub : simpl never.
#[local] Arguments blen : simpl never.
#[local] Arguments num : simpl never.
#[local] Arguments slice : simpl never.

(** ** The state behind an open session *)

Lemma foreign : forall sid cla ins p1 p2 data r outs, keeps INS_SIGN sid (Apdu cla ins p1 p2 data r, outs) ->
  ins <> INS_SIGN -> ins <> INS_VERSION -> ins <> INS_NAME -> accepted outs = true -> False.
Proof.
  intros sid cla ins p1 p2 data r outs K N1 N2 N3 A. cbn [keeps continuation] in K. apply N.eqb_neq in N1. rewrite N1, andb_false_r in K. cbn [andb] in K.
  destruct K as [[K _]|[[K _]|(s & -> & I)]]; [discriminate|tauto|].
  cbn [In] in I. repeat (destruct I as [<-|I]; [discriminate A|]). destruct I.
Qed.
Lemma signing_context : forall E key tr0 start sid body st, env_ok E -> history E key (tr0 ++ start :: body) st ->
  is_start INS_SIGN start = true -> Forall (fun x => is_start INS_SIGN x = false) body ->
  Forall (keeps INS_SIGN sid) body -> Forall (fun o => signature o = None /\ ~ malformed_start o) body ->
  exists g, st_ctx st = X_SIGN g.
Proof.
  intros E key tr0 start sid body st Henv H Hst. revert st H. induction body as [|[e outs] body IH] using rev_ind; intros st H F K N.
  - destruct start as [e outs]. apply history_last in H as (st0 & Hh & Sh & Hev & _ & M & D).
    destruct e as [cla ins p1 p2 data r| | | | | | | |]; try discriminate Hst. cbn [is_start] in Hst.
    apply andb_true_iff in Hst as [Hst Ha]. apply andb_true_iff in Hst as [Hst H1]. apply andb_true_iff in Hst as [H2 H3].
    apply N.eqb_eq in H1, H2, H3. subst.
    inversion M; subst; try discriminate; try congruence; try solve [other];
      try (match goal with K : (if ?b then UiApprove else UiReject) = _ |- _ => destruct b; discriminate K end); try (cbn; eauto; fail).
    + exfalso. match goal with K : refused _ _ _ |- _ => unfold refused in K; cbv beta iota in K; destruct K as [K|[K|[K|[K|K]]]]; decompose [and] K end; subst; discriminate Ha.
    + exfalso. match goal with K : handler_error s = true \/ _ |- _ => destruct K as [K|[K _]]; destruct s; discriminate end.
  - rewrite app_comm_cons, app_assoc in H. apply Forall_app in F as [F _]. apply Forall_app in K as [K Kx]. apply Forall_app in N as [N Nx].
    inversion Kx as [|? ? Kx' _]; subst. inversion Nx as [|? ? [Nx' Nm] _]; subst. clear Kx Nx.
    apply history_last in H as (st0 & Hh & Sh & Hev & _ & M & D). destruct (IH st0 Hh F K N) as [g G]. clear IH.
    inversion M; subst; try (cbn; eauto; fail); try congruence; try (unfold sg_put; cbn; eauto; fail);
      try (exfalso; eapply foreign; [exact Kx'|discriminate|discriminate|discriminate|reflexivity]).
    + exfalso. cbn [keeps continuation] in Kx'. destruct Kx' as [[Kx' _]|[[Kx' _]|Kx']].
      * match goal with K : handler_error s = true \/ _ |- _ => destruct K as [K|[K _]]; destruct s; try discriminate K end;
          cbn in Kx'; rewrite ?andb_false_r in Kx'; discriminate.
      * destruct Kx' as [-> | ->]; discriminate.
      * destruct Kx' as (s0 & E0 & I0). destruct H2 as [K2|(-> & -> & -> & K4)].
        -- cbn [In] in I0. repeat (destruct I0 as [<-|I0]; [destruct s; try discriminate K2; discriminate E0|]). destruct I0.
        -- apply Nm. exists CLA, p2, data, r. split; [reflexivity|]. unfold params_ok in H0. unfold one_or_two in K4.
           assert (p2 <> 0). { intros ->. discriminate H0. } assert (p2 <> 1 /\ p2 <> 2). { split; intros ->; discriminate K4. } lia.
    + exfalso. cbn [keeps continuation] in Kx'. change (INS_ADDRESS =? INS_SIGN) with false in Kx'. rewrite andb_false_r in Kx'. cbn [andb] in Kx'.
      destruct Kx' as [[Kx' _]|[[Kx' _]|(s0 & E0 & I0)]]; [discriminate|destruct Kx'; discriminate|].
      cbn [In] in I0. repeat (destruct I0 as [<-|I0]; [discriminate E0|]). destruct I0.
    + exfalso. apply D. left. reflexivity.
    + exfalso. cbn [signature snd] in Nx'. rewrite (sig_size _ _ _ Henv H1) in Nx'. discriminate.
    + exfalso. cbn [keeps] in Kx'. pose proof (send_not_ub _ _ _ H1) as U. specialize (Kx' [] s).
      assert (s = SW_OK); [|subst; discriminate]. apply Kx'. left. destruct s; try reflexivity. congruence.
    + exfalso. cbn [keeps] in Kx'. specialize (Kx' [] SW_DENY (or_introl eq_refl)). discriminate.
    + exfalso. assert (s = SW_OK); [|subst; discriminate].
      match goal with K : _ \/ _ |- _ => destruct K as [[-> _]|[-> _]] end; cbn [keeps] in Kx'; apply (Kx' [] s (or_introl eq_refl)).
Qed.

Lemma approved_once : forall ins a b body, approved_in ins a body -> approved_in ins b body -> a = b.
Proof.
  intros ins a b body (x1 & e1 & y1 & E1 & U1 & F1) (x2 & e2 & y2 & E2 & U2 & F2). subst body.
  revert x2 E2 F2. induction x1 as [|o x1 IH]; intros [|p x2] E2 F2; cbn [app] in E2.
  - congruence.
  - exfalso. injection E2 as E2 _. subst p. inversion F2 as [|? ? [_ K] _]; subst. destruct U1 as [-> | ->]; discriminate K.
  - exfalso. injection E2 as E2 _. subst o. inversion F1 as [|? ? [_ K] _]; subst. destruct U2 as [-> | ->]; discriminate K.
  - injection E2 as -> E2. inversion F1; subst. inversion F2; subst. eapply IH; eauto.
Qed.
Lemma signing_state : forall E key tr st sid start body, env_ok E -> history E key tr st -> signing sid tr start body -> on_screen tr = None ->
  exists g s, st_busy st = false /\ st_key st = key /\ st_cmd st = CMD_SIGN /\ st_ctx st = X_SIGN g /\ sg_state g = SG_APPROVED /\ sg_session g = sid /\
    sid <> 0 /\ streaming E s (description body) (sg_op g).
Proof.
  intros E key tr st sid start body Henv H ((O & K & Si) & N) Hs.
  pose proof (screen_idle_state _ _ _ _ Henv H Hs) as B. pose proof (history_shape _ _ _ _ H) as Sh.
  destruct (sign_inv_holds E key tr st Henv H) as [Hk I].
  destruct (session_suffix _ _ _ _ O) as (tr0 & Et & S1 & S2). pose proof H as H'. rewrite Et in H'.
  destruct (signing_context _ _ _ _ _ _ _ Henv H' S1 S2 K N) as [g G]. rewrite G in I.
  destruct I as (start' & body' & s & I1 & I2 & I3 & I4). rewrite O in I1. injection I1 as <- <-.
  assert (Hc : st_cmd st = CMD_SIGN) by (unfold shape in Sh; rewrite G in Sh; apply Sh).
  assert (Hg : sg_state g = SG_APPROVED). { destruct (sg_state g) eqn:Eg; [|reflexivity]. exfalso. unfold shape in Sh. rewrite G, Eg in Sh. destruct Sh as (_ & K2 & _). congruence. }
  unfold sign_phase in I4. rewrite Hg in I4. destruct I4 as [A P].
  assert (Es : sg_session g = sid). { destruct Si as [[Si _]|Si]; [discriminate|]. eapply approved_once; eauto. }
  exists g, s. do 6 (split; [assumption|]). split; [destruct I2 as (? & ? & ? & ? & ? & ? & ? & ? & I2); decompose [and] I2; congruence|].
  pose proof (shape_idle _ Sh B) as Hm. destruct (st_ui st); try discriminate; exact P.
Qed.

(** ** One command *)

Lemma new_only_start : forall E key op sub data op' a, op_state_of op = OP_INITIALIZED -> sub <> 0x10 ->
  sign_exec E key op sub data = Some (Ok op', a) -> sub = 0x20 /\ op' = op /\ a = A_CONFIRM.
Proof.
  intros E key op sub data op' a Hi Hn H.
  assert (Hin : In sub [0x11;0x12;0x13;0x14;0x15;0x16;0x17;0x18;0x19;0x1A;0x20]).
  { unfold sign_exec in H. cbn [In].
    repeat match type of H with match ?n with _ => _ end = _ => destruct n; try discriminate end; try tauto. }
  cbn [In] in Hin.
  destruct Hin as [<-|Hin]. { exfalso. cbv [sign_exec] in H. unfold p2pk_add_tokens in H. rewrite Hi in H. discriminate. }
  destruct Hin as [<-|Hin].
  { exfalso. cbv [sign_exec] in H. destruct (parse_input_frame E key data) as [f|]; [|discriminate]. cbn [bind] in H. destruct (if_index f =? 0).
    - unfold p2pk_add_input in H. rewrite Hi in H. discriminate.
    - cbn [bind] in H. unfold p2pk_add_input_tokens in H. rewrite Hi in H. discriminate. }
  destruct Hin as [<-|Hin]. { exfalso. cbv [sign_exec] in H. unfold p2pk_add_input_context_extension in H. rewrite Hi in H. discriminate. }
  destruct Hin as [<-|Hin]. { exfalso. cbv [sign_exec] in H. unfold p2pk_add_data_inputs in H. rewrite Hi in H. discriminate. }
  destruct Hin as [<-|Hin].
  { exfalso. cbv [sign_exec] in H. destruct (parse_output_init data) as [[[[[v t] hh] n] r]|]; [|discriminate]. cbn [bind] in H. unfold p2pk_add_output in H. rewrite Hi in H. discriminate. }
  destruct Hin as [<-|Hin]. { exfalso. cbv [sign_exec] in H. unfold p2pk_add_output_tree_chunk in H. rewrite Hi in H. discriminate. }
  destruct Hin as [<-|Hin]. { exfalso. cbv [sign_exec] in H. destruct (finished data tt); [|discriminate]. cbn [bind] in H. unfold p2pk_add_output_tree_fee in H. rewrite Hi in H. discriminate. }
  destruct Hin as [<-|Hin].
  { exfalso. cbv [sign_exec] in H. destruct (stx_read_bip32_path data) as [[p rest]|]; [|discriminate]. cbn [bind] in H.
    destruct (negb _); [discriminate|]. destruct (generate_public_key E p) as [[pk c]|]; [|discriminate]. unfold p2pk_add_output_tree_change in H. rewrite Hi in H. discriminate. }
  destruct Hin as [<-|Hin]. { exfalso. cbv [sign_exec] in H. unfold p2pk_add_output_tokens in H. rewrite Hi in H. discriminate. }
  destruct Hin as [<-|Hin]. { exfalso. cbv [sign_exec] in H. unfold p2pk_add_output_registers in H. rewrite Hi in H. discriminate. }
  destruct Hin as [<-|[]]. cbv [sign_exec] in H. split; [reflexivity|]. split; congruence.
Qed.

(** The operation succeeds, and for the last command its screen can be put up. *)
Definition goes (E : env) (key : bytes) (op : p2pk) (sub : N) (data : bytes) : Prop :=
  exists op' a, sign_exec E key op sub data = Some (Ok op', a) /\ (a = A_CONFIRM -> op_state_of op = OP_TX_FINISHED).

Lemma goes_some : forall E key op sub data x a, a <> A_CONFIRM -> sign_exec E key op sub data = Some (x, a) ->
  (goes E key op sub data <-> okb x).
Proof.
  intros E key op sub data x a Ha H. unfold goes, okb. rewrite H. split.
  - intros (op' & b & K & _). exists op'. congruence.
  - intros [op' ->]. exists op', a. split; [reflexivity|]. congruence.
Qed.

Lemma goes_iff : forall E key s d op sub data, env_ok E -> bytes_ok data = true -> blen data <= 255 -> streaming E s d op ->
  (goes E key op sub data <-> admissible E key d sub data).
Proof.
  intros E key s d op sub data Henv Hb Hl St. unfold admissible. destruct (N.eq_dec sub 0x10) as [->|N10].
  { rewrite (goes_some _ _ _ _ _ _ A_OK) by (discriminate || reflexivity).
    destruct St as [[-> Nw]|(h & W & T & Se)].
    - rewrite (start_iff s op data Nw). unfold header_ok. cbn [sx_head s_empty]. split.
      + intro H. left. split; [reflexivity|]. split; [reflexivity|]. exact H.
      + intros [[_ [_ H]]|(h & K & _)]; [exact H|discriminate].
    - split.
      + intros [op' H]. exfalso. apply bind_ok in H as ([[[i dd] t] o] & Hp & H). unfold p2pk_start_tx in H.
        destruct T as (_ & Hst & _). rewrite Hst in H. unfold op_phase in H.
        destruct (sx_outputs d); [destruct (sx_inputs d)|destruct (outputs_in d h)]; discriminate.
      + intros [[_ [K _]]|(h' & K & F)]; [rewrite (w_head _ _ _ W) in K; discriminate|destruct F]. }
  destruct St as [[-> Nw]|(h & W & T & Se)].
  { assert (Hi : op_state_of op = OP_INITIALIZED) by apply Nw. split.
    - intros (op' & a & H & Hc). exfalso. destruct (new_only_start _ _ _ _ _ _ _ Hi N10 H) as (_ & _ & Ea). specialize (Hc Ea). congruence.
    - intros [[K _]|(h & K & _)]; [congruence|discriminate]. }
  assert (Q : goes E key op sub data <->
    match sub with
    | 0x11 => tokens_ok d h data
    | 0x12 => SpecAccept.frame_ok E key d h data (describe_cmd d sub data)
    | 0x13 => extension_ok d data
    | 0x14 => data_ok d h data
    | 0x15 => output_ok d h data
    | 0x16 => script_ok d data
    | 0x17 => fee_ok d data (describe_cmd d sub data)
    | 0x18 => change_to_ok E d data (describe_cmd d sub data)
    | 0x19 => output_tokens_ok d h data (describe_cmd d sub data)
    | 0x1A => registers_ok d data
    | 0x20 => outputs_done d h
    | _ => False
    end).
  2: { rewrite Q. split.
    - intro H. right. exists h. split; [apply (w_head _ _ _ W)|exact H].
    - intros [[K _]|(h' & K & H)]; [congruence|]. rewrite (w_head _ _ _ W) in K. injection K as <-. exact H. }
  destruct (sign_exec E key op sub data) as [[x a]|] eqn:Ex.
  2: { split.
    - intros (op' & a & K & _). congruence.
    - intro H. unfold sign_exec in Ex.
      repeat match type of Ex with match ?n with _ => _ end = _ => destruct n; try discriminate; try contradiction end. }
  pose proof Ex as Hin. unfold sign_exec in Hin.
  repeat match type of Hin with match ?n with _ => _ end = _ => destruct n; try discriminate end; try congruence; clear Hin.
  all: clear Ex x a.
  - eapply iff_trans; [eapply (goes_some _ _ _ _ _ _ A_OUTPUT); [discriminate|reflexivity]|]. eapply fee_iff; eassumption.
  - eapply iff_trans; [eapply (goes_some _ _ _ _ _ _ A_OK); [discriminate|reflexivity]|]. eapply extension_iff; eassumption.
  - eapply iff_trans; [eapply (goes_some _ _ _ _ _ _ A_OK); [discriminate|reflexivity]|]. eapply output_open_iff; eassumption.
  - eapply iff_trans; [eapply (goes_some _ _ _ _ _ _ A_OUTPUT); [discriminate|reflexivity]|]. eapply out_tokens_iff; eassumption.
  - eapply iff_trans; [eapply (goes_some _ _ _ _ _ _ A_OK); [discriminate|reflexivity]|]. eapply tokens_iff; eassumption.
  - eapply iff_trans; [eapply (goes_some _ _ _ _ _ _ A_OUTPUT); [discriminate|reflexivity]|]. eapply script_iff; eassumption.
  - eapply iff_trans; [eapply (goes_some _ _ _ _ _ _ A_OUTPUT); [discriminate|reflexivity]|]. eapply registers_iff; eassumption.
  - eapply iff_trans; [eapply (goes_some _ _ _ _ _ _ A_OK); [discriminate|reflexivity]|]. split; [eapply frame_accepted; eassumption|eapply frame_admissible; eassumption].
  - eapply iff_trans; [eapply (goes_some _ _ _ _ _ _ A_OK); [discriminate|reflexivity]|]. eapply data_iff; eassumption.
  - eapply iff_trans; [eapply (goes_some _ _ _ _ _ _ A_OUTPUT); [discriminate|reflexivity]|]. eapply change_iff; eassumption.
  - assert (Hst : op_state_of op = op_phase d h) by apply T. unfold goes. cbv [sign_exec]. rewrite <- outputs_in_done. split.
    + intros (op' & a & H & Hc). assert (a = A_CONFIRM) as -> by congruence. specialize (Hc eq_refl). rewrite Hst in Hc. unfold op_phase in Hc.
      destruct (sx_outputs d); [destruct (sx_inputs d); discriminate|]. destruct (outputs_in d h); [reflexivity|discriminate].
    + intro K. exists op, A_CONFIRM. split; [reflexivity|]. intros _. rewrite Hst, op_phase_some, K; [reflexivity|].
      intro Eo. apply outputs_in_done in K. unfold outputs_done in K. rewrite Eo in K. change (count_complete output_complete []) with 0 in K. pose proof (w_outputs _ _ _ W). lia.
Qed.

Lemma exec_answers : forall E key s d st g sub data, env_ok E -> bytes_ok data = true -> blen data <= 255 -> streaming E s d (sg_op g) ->
  st_key st = key -> sg_state g = SG_APPROVED ->
  (accepted (snd (sign_command E st g sub data)) = true <-> goes E key (sg_op g) sub data).
Proof.
  intros E key s d st g sub data Henv Hb Hl St Hk Hg. unfold sign_command. rewrite Hg, Hk. unfold goes.
  destruct (sign_exec E key (sg_op g) sub data) as [[[op|sw] a]|] eqn:Ex.
  2,3: split; [|intros (? & ? & K & _); discriminate]; intro K; exfalso.
  2: { pose proof (nok_exec _ _ _ _ _ _ _ Ex) as Hn. pose proof (nok_ne _ _ _ Hn eq_refl) as Hh. destruct sw; try discriminate Hh; discriminate K. }
  2: discriminate K.
  destruct a.
  - split; [|reflexivity]. intros _. exists op, A_OK. split; [reflexivity|discriminate].
  - destruct (exec_ok E s key d (sg_op g) sub data op A_OUTPUT Henv Hb Hl St Ex ltac:(discriminate)) as (_ & _ & X).
    destruct (X eq_refl) as (h & W & T & F & Ne).
    destruct (snoc_cases _ (sx_outputs (describe_cmd d sub data))) as [En|(pre & o & En)]; [contradiction|].
    assert (Hs : so_shown o = false) by (destruct (F pre o En) as (_ & ? & _); assumption).
    unfold show_output_screen_if_needed. rewrite (should_show_ok E s _ h op pre o W T En Hs).
    destruct (_ && _).
    + destruct (output_screen_fits E s _ h op pre o W T En) as [[[f dy] op'] ->].
      split; [|reflexivity]. intros _. exists op, A_OUTPUT. split; [reflexivity|discriminate].
    + split; [|reflexivity]. intros _. exists op, A_OUTPUT. split; [reflexivity|discriminate].
  - destruct (exec_confirm _ _ _ _ _ _ Ex) as [-> Eo]. assert (op = sg_op g) as -> by congruence. split.
    + intro K. exists (sg_op g), A_CONFIRM. split; [reflexivity|]. intros _.
      unfold p2pk_show_confirm_screen in K. destruct (op_state_of (sg_op g)); try discriminate K. reflexivity.
    + intros (op' & a & K & Hc). assert (a = A_CONFIRM) as -> by congruence. specialize (Hc eq_refl).
      destruct (streaming_tx' _ _ _ _ St ltac:(congruence)) as (h & W & T & Se).
      destruct (confirm_screen_fits E s d h (sg_op g) T Hc) as [[[f dy] op2] ->]. reflexivity.
Qed.

Theorem accepts : forall E key tr st sid start body sub data r, env_ok E -> history E key tr st ->
  signing sid tr start body -> on_screen tr = None -> event_ok (Apdu CLA INS_SIGN sub sid data r) -> sub <> 1 ->
  (accepted (snd (step E st (Apdu CLA INS_SIGN sub sid data r))) = true <-> admissible E key (description body) sub data).
Proof.
  intros E key tr st sid start body sub data r Henv H Sg Hs (_ & _ & _ & _ & Hb & Hl & _) N1.
  destruct (signing_state _ _ _ _ _ _ _ Henv H Sg Hs) as (g & s & B & Hk & Hc & Hx & Hg & Es & Ns & St).
  assert (Hl' : blen data <= 255) by (unfold blen; lia).
  rewrite <- (goes_iff E key s _ (sg_op g) sub data Henv Hb Hl' St), <- (exec_answers E key s _ st g sub data Henv Hb Hl' St Hk Hg).
  cbn [step]. unfold apdu_dispatcher. change (negb (CLA =? 0xE0)) with false. cbv iota. change INS_SIGN with 0x21. cbv iota.
  apply N.eqb_neq in Ns. rewrite Ns, orb_false_r.
  assert (Sub : is_sign_subcommand sub = false -> accepted (snd (sign_command E st g sub data)) = false).
  { intro K. unfold sign_command. rewrite Hg. destruct (sign_exec E (st_key st) (sg_op g) sub data) as [[x a]|] eqn:Ex; [|reflexivity].
    exfalso. unfold sign_exec in Ex. repeat match type of Ex with match ?n with _ => _ end = _ => destruct n; try discriminate end. }
  destruct (sub =? 0) eqn:Z.
  { apply N.eqb_eq in Z. subst sub. rewrite (Sub eq_refl). split; discriminate. }
  unfold handler_sign. rewrite B. apply N.eqb_neq in N1. rewrite N1, Hc, Hx, Es, N.eqb_refl.
  destruct (is_sign_subcommand sub) eqn:Q; [reflexivity|]. rewrite (Sub eq_refl). split; discriminate.
Qed.
