(** The operation and the handlers do the same to a buffer as to the list of its unread bytes. *)
From Verif Require Import Lib Env Bip32 InputFrame RwBuffer SpecBuffer RwBufferProofs TxTable TxBox TxInput TxFull
  Amounts OutputInfo UiFlow P2pkOp App ReadBuf ReadTx ReadApp ReadProofs ReadTxProofs.

#[local] Arguments N.eqb : simpl never.
#[local] Arguments N.ltb : simpl never.
#[local] Arguments N.leb : simpl never.
#[local] Arguments N.sub : simpl never.

Section AppOk.
  Variable E : env.

  Ltac op_ok := destruct (op_state_of _); try reflexivity; unfold tx_call; destruct (op_union_of _); try reflexivity.

  Lemma p2pk_add_tokens_ok : forall c b, buffer_valid b -> raw_p2pk_add_tokens c b = p2pk_add_tokens c (unread b).
  Proof. intros c b V. unfold raw_p2pk_add_tokens, p2pk_add_tokens. op_ok. rewrite full_add_tokens_ok by assumption. reflexivity. Qed.
  Lemma p2pk_add_input_tokens_ok : forall c id i b, buffer_valid b ->
    raw_p2pk_add_input_tokens c id i b = p2pk_add_input_tokens c id i (unread b).
  Proof.
    intros c id i b V. unfold raw_p2pk_add_input_tokens, p2pk_add_input_tokens. op_ok.
    rewrite full_add_input_tokens_ok by assumption. reflexivity.
  Qed.
  Lemma p2pk_add_input_context_extension_ok : forall c b, buffer_valid b ->
    raw_p2pk_add_input_context_extension c b = p2pk_add_input_context_extension c (unread b).
  Proof.
    intros c b V. unfold raw_p2pk_add_input_context_extension, p2pk_add_input_context_extension. op_ok.
    rewrite full_add_input_context_extension_ok by assumption. reflexivity.
  Qed.
  Lemma p2pk_add_data_inputs_ok : forall c b, buffer_valid b -> raw_p2pk_add_data_inputs c b = p2pk_add_data_inputs c (unread b).
  Proof. intros c b V. unfold raw_p2pk_add_data_inputs, p2pk_add_data_inputs. op_ok. rewrite full_add_data_inputs_ok by assumption. reflexivity. Qed.
  Lemma p2pk_add_output_tree_chunk_ok : forall c b, buffer_valid b -> blen (unread b) < 2 ^ 16 ->
    raw_p2pk_add_output_tree_chunk E c b = p2pk_add_output_tree_chunk E c (unread b).
  Proof.
    intros c b V L. unfold raw_p2pk_add_output_tree_chunk, p2pk_add_output_tree_chunk. op_ok.
    rewrite full_add_box_ergo_tree_ok by assumption.
    replace (u16 (rw_buffer_data_len b)) with (rw_buffer_data_len b).
    2:{ rewrite data_len_unread by assumption. unfold u16. rewrite N.mod_small; [reflexivity|exact L]. }
    rewrite peek_all by assumption. reflexivity.
  Qed.
  Lemma p2pk_add_output_tokens_ok : forall c b, buffer_valid b -> raw_p2pk_add_output_tokens E c b = p2pk_add_output_tokens E c (unread b).
  Proof. intros c b V. unfold raw_p2pk_add_output_tokens, p2pk_add_output_tokens. op_ok. rewrite full_add_box_tokens_ok by assumption. reflexivity. Qed.
  Lemma p2pk_add_output_registers_ok : forall c b, buffer_valid b ->
    raw_p2pk_add_output_registers E c b = p2pk_add_output_registers E c (unread b).
  Proof. intros c b V. unfold raw_p2pk_add_output_registers, p2pk_add_output_registers. op_ok. rewrite full_add_box_registers_ok by assumption. reflexivity. Qed.

  (** * Handlers *)
  Lemma handler_epk_ok : forall st b has, buffer_valid b -> raw_handler_epk E st b has = handler_epk E st (unread b) has.
  Proof. intros st b has V. unfold raw_handler_epk, handler_epk. rewrite parse_epk_ok by assumption. reflexivity. Qed.
  Lemma handler_da_ok : forall st b disp has, buffer_valid b -> raw_handler_da E st b disp has = handler_da E st (unread b) disp has.
  Proof. intros st b disp has V. unfold raw_handler_da, handler_da. rewrite parse_da_ok by assumption. reflexivity. Qed.

  Lemma attest_init_ok : forall st b has r, buffer_valid b -> raw_attest_init st b has r = attest_init st (unread b) has r.
  Proof. intros st b has r V. unfold raw_attest_init, attest_init. rewrite parse_attest_init_ok by assumption. reflexivity. Qed.
  Lemma attest_get_frame_ok : forall st c b, buffer_valid b -> raw_attest_get_frame E st c b = attest_get_frame E st c (unread b).
  Proof.
    intros st c b V. unfold raw_attest_get_frame, attest_get_frame. rewrite parse_frame_index_ok by assumption. reflexivity.
  Qed.
  Lemma handler_attest_ok : forall st b sub sid r, buffer_valid b ->
    raw_handler_attest E st b sub sid r = handler_attest E st (unread b) sub sid r.
  Proof.
    intros st b sub sid r V. unfold raw_handler_attest, handler_attest. cbv zeta.
    destruct (st_busy st); [reflexivity|]. rewrite attest_init_ok by assumption.
    destruct (st_cmd st); try reflexivity. destruct (st_ctx st) as [| | |c|g]; try reflexivity.
    unfold attest_box_call.
    rewrite box_add_tree_ok, box_add_tokens_ok, box_add_registers_ok, attest_get_frame_ok by assumption. reflexivity.
  Qed.

  Lemma sign_init_ok : forall st b has r, buffer_valid b -> raw_sign_init E st b has r = sign_init E st (unread b) has r.
  Proof. intros st b has r V. unfold raw_sign_init, sign_init. rewrite parse_sign_init_ok by assumption. reflexivity. Qed.
  Lemma sign_exec_ok : forall key op sub b, buffer_valid b -> blen (unread b) < 2 ^ 16 ->
    raw_sign_exec E key op sub b = sign_exec E key op sub (unread b).
  Proof.
    intros key op sub b V L. unfold raw_sign_exec, sign_exec.
    rewrite parse_tx_start_ok, parse_output_init_ok, p2pk_add_tokens_ok, p2pk_add_input_context_extension_ok,
      p2pk_add_data_inputs_ok, p2pk_add_output_tree_chunk_ok, p2pk_add_output_tokens_ok, p2pk_add_output_registers_ok, at_end_ok by assumption.
    assert (F : bind (raw_parse_input_frame E key b) (fun f =>
                bind (if rf_index f =? 0
                      then p2pk_add_input op (rf_box_id f) (rf_value f) (rf_frames_count f) (rf_ext_len f)
                      else Ok op) (fun op => raw_p2pk_add_input_tokens op (rf_box_id f) (rf_index f) (rf_tokens f)))
              = bind (parse_input_frame E key (unread b)) (fun f =>
                bind (if if_index f =? 0
                      then p2pk_add_input op (if_box_id f) (if_value f) (if_frames_count f) (if_ext_len f)
                      else Ok op) (fun op => p2pk_add_input_tokens op (if_box_id f) (if_index f) (if_tokens f)))).
    { pose proof (parse_input_frame_ok E key b V) as P. destruct (raw_parse_input_frame E key b) as [f|s]; cbn [frame_agrees] in P.
      - destruct P as [Vt P]. rewrite P. cbn [bind if_box_id if_frames_count if_index if_value if_tokens if_ext_len].
        destruct (if rf_index f =? 0 then _ else _) as [op'|s]; [|reflexivity]. cbn [bind].
        apply p2pk_add_input_tokens_ok. exact Vt.
      - rewrite P. reflexivity. }
    rewrite F. clear F.
    rewrite (raw_read_path_ok _ b _ (fun '(p, _) =>
              if negb (ergo_path_validate p V_ADDRESS_GE5) then Fail SW_BIP32_BAD_PATH
              else match generate_public_key E p with
                   | None => Fail SW_INTERNAL_CRYPTO_ERROR
                   | Some (pk, _) => p2pk_add_output_tree_change E op p pk
                   end) V ltac:(reflexivity)).
    reflexivity.
  Qed.
  Lemma handler_sign_ok : forall st b sub sid r, buffer_valid b -> blen (unread b) < 2 ^ 16 ->
    raw_handler_sign E st b sub sid r = handler_sign E st (unread b) sub sid r.
  Proof.
    intros st b sub sid r V L. unfold raw_handler_sign, handler_sign. rewrite sign_init_ok by assumption.
    destruct (st_busy st); [reflexivity|]. destruct (sub =? 1); [reflexivity|]. destruct (is_sign_subcommand sub); [|reflexivity].
    destruct (st_cmd st); try reflexivity. destruct (st_ctx st) as [| | |c|g]; try reflexivity.
    unfold raw_sign_command, sign_command. rewrite sign_exec_ok by assumption. reflexivity.
  Qed.

  Lemma dispatcher_ok : forall st cla ins p1 p2 b r, buffer_valid b -> blen (unread b) < 2 ^ 16 ->
    raw_apdu_dispatcher E st cla ins p1 p2 b r = apdu_dispatcher E st cla ins p1 p2 (unread b) r.
  Proof.
    intros st cla ins p1 p2 b r V L. unfold raw_apdu_dispatcher, apdu_dispatcher.
    rewrite handler_epk_ok, handler_da_ok, handler_attest_ok, handler_sign_ok by assumption. reflexivity.
  Qed.
End AppOk.
