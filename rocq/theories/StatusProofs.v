(** What the error codes say: the commands of an open signing session. *)
From Verif Require Import Lib Env Bip32 ErgoTree UiFlow TxTable P2pkOp App SpecTree SpecTrace SpecTx SpecAmounts SpecApdu SpecScreen SpecRequest SpecDispatch
  SpecSign SpecRules SpecAccept SpecStart SpecStatus Moves SignInv SignInput SignOutput SignRest SignShow TraceSign TraceAttest TraceScreen TraceShow TraceUb DispatchProofs
  FlowProofs RequestProofs SessionProofs AcceptInput AcceptFrame AcceptOutput AcceptProofs StatusSign StatusFrame StatusOutput.

#[local] Arguments N.eqb : simpl never.
#[local] Arguments N.ltb : simpl never.
#[local] Arguments N.leb : simpl never.
#[local] Arguments N.sub : simpl never.
#[local] Arguments blen : simpl never.
#[local] Arguments num : simpl never.
#[local] Arguments slice : simpl never.

(** Before the header, the other commands fail with a layout error or a bad state. *)
Lemma exec_new_why : forall E key op sub data e a, bytes_ok data = true -> op_state_of op = OP_INITIALIZED -> sub <> 0x10 ->
  sign_exec E key op sub data = Some (Fail e, a) -> layout_error E key sub data e \/ e = SW_BAD_STATE.
Proof.
  intros E key op sub data e a Hb Hi N10 H.
  assert (Hin : In sub [0x11;0x12;0x13;0x14;0x15;0x16;0x17;0x18;0x19;0x1A]).
  { unfold sign_exec in H. cbn [In].
    repeat match type of H with match ?n with _ => _ end = _ => destruct n; try discriminate end; try tauto. }
  assert (G : forall x : out p2pk, Some (x, a) = Some (Fail e, a) -> x = Fail e) by (intros; congruence).
  cbn [In] in Hin.
  destruct Hin as [<-|Hin]. { right. cbv [sign_exec] in H. unfold p2pk_add_tokens in H. rewrite Hi in H. congruence. }
  destruct Hin as [<-|Hin].
  { cbv [sign_exec] in H. destruct (parse_input_frame E key data) as [f|e1] eqn:Hp; cbn [bind] in H.
    - right. destruct (if_index f =? 0); cbn [bind] in H.
      + unfold p2pk_add_input in H. rewrite Hi in H. cbn [bind] in H. congruence.
      + unfold p2pk_add_input_tokens in H. rewrite Hi in H. congruence.
    - left. assert (e1 = e) as -> by congruence. apply parse_frame_why; assumption. }
  destruct Hin as [<-|Hin]. { right. cbv [sign_exec] in H. unfold p2pk_add_input_context_extension in H. rewrite Hi in H. congruence. }
  destruct Hin as [<-|Hin]. { right. cbv [sign_exec] in H. unfold p2pk_add_data_inputs in H. rewrite Hi in H. congruence. }
  destruct Hin as [<-|Hin].
  { cbv [sign_exec] in H. destruct (parse_output_init data) as [[[[[v t] hh] n] r]|e1] eqn:Hp; cbn [bind] in H.
    - right. unfold p2pk_add_output in H. rewrite Hi in H. congruence.
    - left. assert (e1 = e) as -> by congruence. cbv [layout_error]. apply short21. exact Hp. }
  destruct Hin as [<-|Hin]. { right. cbv [sign_exec] in H. unfold p2pk_add_output_tree_chunk in H. rewrite Hi in H. congruence. }
  destruct Hin as [<-|Hin].
  { cbv [sign_exec] in H. destruct data as [|y data]; cbn [finished bind] in H.
    - right. unfold p2pk_add_output_tree_fee in H. rewrite Hi in H. congruence.
    - left. cbv [layout_error]. split; [congruence|discriminate]. }
  destruct Hin as [<-|Hin].
  { assert (K : exec_change E op data = Fail e) by (cbv [sign_exec] in H; unfold exec_change; congruence). clear H.
    destruct (change_layout_why E key op data e K) as [L|[pk L]]; [left; exact L|right].
    unfold p2pk_add_output_tree_change in L. rewrite Hi in L. congruence. }
  destruct Hin as [<-|Hin]. { right. cbv [sign_exec] in H. unfold p2pk_add_output_tokens in H. rewrite Hi in H. congruence. }
  destruct Hin as [<-|[]]. right. cbv [sign_exec] in H. unfold p2pk_add_output_registers in H. rewrite Hi in H. congruence.
Qed.

Lemma exec_why : forall E key s d op sub data e a, bytes_ok data = true -> blen data <= 255 -> streaming E s d op ->
  sign_exec E key op sub data = Some (Fail e, a) -> sign_error E key d sub data e.
Proof.
  intros E key s d op sub data e a Hb Hl St H. unfold sign_error. cbv zeta. destruct (N.eq_dec sub 0x10) as [->|N10].
  { left. split; [reflexivity|]. cbv [sign_exec] in H.
    assert (K : bind (parse_tx_start data) (fun '(i, d, t, o) => p2pk_start_tx op i d o t) = Fail e) by congruence. clear H.
    destruct St as [[-> Nw]|(h & W & T & Se)]; [eapply start_why; eassumption|eapply restart_why; eassumption]. }
  right. destruct St as [[-> Nw]|(h & W & T & Se)].
  { assert (Hi : op_state_of op = OP_INITIALIZED) by apply Nw.
    destruct (exec_new_why E key op sub data e a Hb Hi N10 H) as [L| ->]; [left; exact L|right; left].
    split; [exact N10|]. split; reflexivity. }
  assert (Q : layout_error E key sub data e \/
    match sub with
    | 0x11 => tokens_error d h data e
    | 0x12 => frame_error d h data (describe_cmd d sub data) e
    | 0x13 => extension_error d data e
    | 0x14 => data_error d h data e
    | 0x15 => output_error d h data e
    | 0x16 => script_error d data e
    | 0x17 | 0x18 => whole_error d (describe_cmd d sub data) e
    | 0x19 => output_tokens_error d h data (describe_cmd d sub data) e
    | 0x1A => registers_error d data e
    | 0x20 => e = SW_BAD_STATE /\ ~ outputs_done d h
    | _ => False
    end).
  2: { destruct Q as [Q|Q]; [left; exact Q|right; right]. exists h. split; [apply (w_head _ _ _ W)|exact Q]. }
  pose proof H as Hin. unfold sign_exec in Hin.
  repeat match type of Hin with match ?n with _ => _ end = _ => destruct n; try discriminate end; try congruence; clear Hin.
  - assert (K : bind (finished data tt) (fun _ => p2pk_add_output_tree_fee E op) = Fail e) by (cbv [sign_exec] in H; congruence).
    eapply fee_why in K; eassumption.
  - right. assert (K : p2pk_add_input_context_extension op data = Fail e) by (cbv [sign_exec] in H; congruence). eapply extension_why; eassumption.
  - assert (K : bind (parse_output_init data) (fun '(v, t, hh, n, r) => p2pk_add_output op v t hh n r) = Fail e) by (cbv [sign_exec] in H; congruence).
    eapply output_why in K; eassumption.
  - right. assert (K : p2pk_add_output_tokens E op data = Fail e) by (cbv [sign_exec] in H; congruence). eapply out_tokens_why; eassumption.
  - right. assert (K : p2pk_add_tokens op data = Fail e) by (cbv [sign_exec] in H; congruence). eapply tokens_why; eassumption.
  - right. assert (K : p2pk_add_output_tree_chunk E op data = Fail e) by (cbv [sign_exec] in H; congruence). eapply script_why; eassumption.
  - right. assert (K : p2pk_add_output_registers E op data = Fail e) by (cbv [sign_exec] in H; congruence). eapply registers_why; eassumption.
  - assert (K : exec_frame E key op data = Fail e) by (cbv [sign_exec] in H; unfold exec_frame; congruence).
    eapply frame_why in K; eassumption.
  - right. assert (K : p2pk_add_data_inputs op data = Fail e) by (cbv [sign_exec] in H; congruence). eapply data_why; eassumption.
  - assert (K : exec_change E op data = Fail e) by (cbv [sign_exec] in H; unfold exec_change; congruence).
    destruct (change_layout_why E key op data e K) as [L|[pk L]]; [left; exact L|right]. eapply change_why; [exact W|exact T|reflexivity|exact L].
Qed.

(** The answer to a command of an approved session. *)
Lemma resp_in : forall b e s, In (OResp b e) [resp s] -> b = [] /\ e = s.
Proof. intros b e s [H|[]]. destruct s; cbn [resp] in H; try discriminate H; split; congruence. Qed.
Lemma subcommand_exec : forall E key op sub data, is_sign_subcommand sub = true -> sign_exec E key op sub data <> None.
Proof.
  intros E key op sub data H K.
  assert (Hin : In sub [0x10;0x11;0x12;0x13;0x14;0x15;0x16;0x17;0x18;0x19;0x1A;0x20]).
  { unfold is_sign_subcommand in H. apply orb_true_iff in H as [H|H].
    - apply andb_true_iff in H as [H1 H2]. apply N.leb_le in H1, H2. cbn [In]. lia.
    - apply N.eqb_eq in H. subst. cbn [In]. tauto. }
  cbn [In] in Hin. repeat (destruct Hin as [<-|Hin]; [discriminate K|]). destruct Hin.
Qed.
Lemma command_why : forall E key s d st g sub data b e, env_ok E -> bytes_ok data = true -> blen data <= 255 -> streaming E s d (sg_op g) ->
  st_key st = key -> sg_state g = SG_APPROVED -> is_sign_subcommand sub = true ->
  In (OResp b e) (snd (sign_command E st g sub data)) -> e <> SW_OK -> b = [] /\ sign_error E key d sub data e.
Proof.
  intros E key s d st g sub data b e Henv Hb Hl St Hk Hg Hsub H He. unfold sign_command in H. rewrite Hg, Hk in H.
  destruct (sign_exec E key (sg_op g) sub data) as [[[op|sw] a]|] eqn:Ex.
  3:{ exfalso. eapply subcommand_exec; eassumption. }
  2:{ unfold handler_err in H. cbn [snd] in H. destruct (resp_in _ _ _ H) as [Eb Ee]. split; [exact Eb|]. subst e. eapply exec_why; eassumption. }
  destruct a.
  - exfalso. cbn [snd] in H. destruct (resp_in _ _ _ H) as [_ Ee]. contradiction.
  - exfalso. destruct (exec_ok E s key d (sg_op g) sub data op A_OUTPUT Henv Hb Hl St Ex ltac:(discriminate)) as (_ & _ & X).
    destruct (X eq_refl) as (h & W & T & F & Ne).
    destruct (snoc_cases _ (sx_outputs (describe_cmd d sub data))) as [En|(pre & o & En)]; [contradiction|].
    assert (Hs : so_shown o = false) by (destruct (F pre o En) as (_ & ? & _); assumption).
    unfold show_output_screen_if_needed in H. rewrite (should_show_ok E s _ h op pre o W T En Hs) in H.
    destruct (_ && _).
    + destruct (output_screen_fits E s _ h op pre o W T En) as [[[f dy] op'] Eo]. rewrite Eo in H. destruct H as [H|[]]. discriminate H.
    + destruct (resp_in _ _ _ H) as [_ Ee]. contradiction.
  - destruct (exec_confirm _ _ _ _ _ _ Ex) as [-> Eo]. assert (op = sg_op g) as -> by congruence.
    destruct (op_state_of (sg_op g)) eqn:Est.
    5:{ exfalso. destruct (streaming_tx' _ _ _ _ St ltac:(congruence)) as (h & W & T & Se).
        destruct (confirm_screen_fits E s d h (sg_op g) T Est) as [[[f dy] op2] Ec]. rewrite Ec in H. destruct H as [H|[]]. discriminate H. }
    all: assert (Bs : b = [] /\ e = SW_BAD_STATE)
      by (unfold p2pk_show_confirm_screen in H; rewrite Est in H; cbn [snd handler_err] in H; exact (resp_in _ _ _ H)).
    all: destruct Bs as [-> ->]; split; [reflexivity|]; right; right.
    all: destruct St as [[-> Nw]|(h & W & T & Se)]; [left; split; [discriminate|split; reflexivity]|right; exists h; split; [apply (w_head _ _ _ W)|]].
    all: split; [reflexivity|]; rewrite <- outputs_in_done; intro K.
    all: assert (Hst : op_state_of (sg_op g) = op_phase d h) by apply T.
    all: rewrite op_phase_some, K in Hst; [congruence|].
    all: intro Eo2; apply outputs_in_done in K; unfold outputs_done in K; rewrite Eo2 in K; change (count_complete output_complete []) with 0 in K; pose proof (w_outputs _ _ _ W); lia.
Qed.
