(** C16: a failed call of a serializer is final; a failed command ends the session. *)
From Verif Require Import Lib Env TxTable TxBox TxInput TxFull UiFlow P2pkOp App SpecTrace SpecApdu SpecScreen SpecSign SpecLatch
  Toy SessionProofs LatchProofs RulesProofs RulesToy.

(** C16, transactions.  Whatever the callbacks do: after a call that failed every later call
    returns BAD_STATE, and nothing more is hashed, counted or called back. *)
Theorem C16_transaction : forall (A : Type) (tget : A -> token_table) tset box_cb input_cb c (s : fs A) r s',
  run_full tget tset box_cb input_cb c s = (r, s') -> failed r ->
  forall l, fst (calls (run_full tget tset box_cb input_cb) l s') = repeat R_BAD_STATE (length l) /\
    fs_hash (snd (calls (run_full tget tset box_cb input_cb) l s')) = fs_hash s' /\
    fs_cb (snd (calls (run_full tget tset box_cb input_cb) l s')) = fs_cb s'.
Proof. exact @full_latch. Qed.
Print Assumptions C16_transaction.
Theorem C16_transaction_init : forall (A : Type) (tget : A -> token_table) tset box_cb input_cb inputs data_inputs outputs tokens hash a r (s' : fs A),
  full_init tget tset inputs data_inputs outputs tokens hash a = (r, s') -> failed r ->
  forall l, fst (calls (run_full tget tset box_cb input_cb) l s') = repeat R_BAD_STATE (length l) /\
    fs_hash (snd (calls (run_full tget tset box_cb input_cb) l s')) = fs_hash s' /\
    fs_cb (snd (calls (run_full tget tset box_cb input_cb) l s')) = fs_cb s'.
Proof. exact @full_init_latch. Qed.
Print Assumptions C16_transaction_init.

(** C16, boxes.  Likewise, except for entries of tokens cut inside an index. *)
Theorem C16_box : forall (A : Type) blake cb c (s : bs A) r s', run_box blake cb c s = (r, s') -> failed r ->
  (forall l table, c = B_TOKENS l (Some table) -> r = R_BAD_TOKEN_INDEX -> ~ short_index l) ->
  forall l, fst (calls (run_box blake cb) l s') = repeat R_BAD_STATE (length l) /\
    bs_hash (snd (calls (run_box blake cb) l s')) = bs_hash s' /\ bs_cb (snd (calls (run_box blake cb) l s')) = bs_cb s'.
Proof. exact @box_latch. Qed.
Print Assumptions C16_box.
Theorem C16_box_init : forall (A : Type) value tree height tokens regs hash (a : A) r s',
  box_init value tree height tokens regs hash a = (r, s') -> failed r ->
  forall blake cb l, fst (calls (run_box blake cb) l s') = repeat R_BAD_STATE (length l) /\
    bs_hash (snd (calls (run_box blake cb) l s')) = bs_hash s' /\ bs_cb (snd (calls (run_box blake cb) l s')) = bs_cb s'.
Proof. exact @box_init_latch. Qed.
Print Assumptions C16_box_init.

(** C16, inputs. *)
Theorem C16_input : forall (A : Type) cb c (s : ins A) r s', run_input cb c s = (r, s') -> failed r ->
  forall l, fst (calls (run_input cb) l s') = repeat R_BAD_STATE (length l) /\
    is_hash (snd (calls (run_input cb) l s')) = is_hash s' /\ is_cb (snd (calls (run_input cb) l s')) = is_cb s'.
Proof. exact @input_latch. Qed.
Print Assumptions C16_input.
Theorem C16_input_init : forall (A : Type) id n e r c (hash : bytes) (a : A), input_init id n e = (r, c) -> failed r ->
  forall cb l, fst (calls (run_input cb) l (mk_ins c hash a)) = repeat R_BAD_STATE (length l) /\
    is_hash (snd (calls (run_input cb) l (mk_ins c hash a))) = hash /\ is_cb (snd (calls (run_input cb) l (mk_ins c hash a))) = a.
Proof. exact @input_init_latch. Qed.
Print Assumptions C16_input_init.

(** A box of two tokens: after an index that is not in the table, dead; after an entry cut
    in its index, not (then the rest of the entries is taken). *)
Definition NO_CB : box_callbacks unit := mk_box_callbacks None None None.
Definition BOX2 : bs unit := snd (box_init 7 2 1 2 0 [] tt).
Definition IDS : option (N * token_table) := Some (1, [repeat 1 32]).
Example C16_ex :
  fst (calls (run_box (fun x => x) NO_CB) [B_TREE [1; 2]; B_TOKENS [0; 0; 0; 9] IDS; B_TOKENS (be_bytes 4 0 ++ be_bytes 8 5) IDS] BOX2) =
    [R_OK; R_BAD_TOKEN_INDEX; R_BAD_STATE] /\
  fst (calls (run_box (fun x => x) NO_CB) [B_TREE [1; 2]; B_TOKENS (be_bytes 4 0 ++ be_bytes 8 5 ++ [0; 0]) IDS; B_TOKENS (be_bytes 4 0 ++ be_bytes 8 5) IDS] BOX2) =
    [R_OK; R_BAD_TOKEN_INDEX; R_OK].
Proof. vm_compute. auto. Qed.

(** C16, device.  An attestation or signing command that is refused changes nothing (BUSY,
    wrong P1/P2) or leaves nothing of the session. *)
Theorem C16_device : forall E key tr st ins p1 p2 data r st' outs, env_ok E -> history E key tr st -> ins = INS_ATTEST \/ ins = INS_SIGN ->
  event_ok (Apdu CLA ins p1 p2 data r) -> step E st (Apdu CLA ins p1 p2 data r) = (st', outs) -> ~ In ODiverge outs -> accepted outs = false ->
  exists s, outs = [OResp [] s] /\ s <> SW_OK /\ (st' = st /\ (s = SW_BUSY \/ s = SW_WRONG_P1P2) \/ cleared st').
Proof. exact refused_command. Qed.
Print Assumptions C16_device.
(** After the second kind no command of the session is accepted before a new start. *)
Theorem C16_over : forall E key tr1 o tr2 c st ins p1 p2 data r outs, env_ok E -> ins = INS_ATTEST \/ ins = INS_SIGN ->
  o = (Apdu CLA ins p1 p2 data r, outs) -> accepted outs = false -> ~ early_refusal outs ->
  history E key (tr1 ++ o :: tr2 ++ [c]) st -> continuation ins c <> None ->
  exists a start b sid, tr2 = a ++ start :: b /\ is_start ins start = true /\ session_id ins sid start b.
Proof. exact refused_over. Qed.
Print Assumptions C16_over.
(** In the sample session a cut index is an error of the command, and ends it. *)
Definition CUT : list event := ONE_INPUT 1 ++ [output_head 1000000000 36 501 1 0; sign_cmd 0x16 OTHER_TREE; sign_cmd 0x19 [0; 0]].
Example C16_device_ex : playable CUT = true /\ snd (last (trace CUT) NO_OBS) = [OResp [] SW_BAD_TOKEN_INDEX] /\ cleared (final CUT) /\
  ~ early_refusal [OResp [] SW_BAD_TOKEN_INDEX].
Proof.
  split; [vm_compute; reflexivity|]. split; [vm_compute; reflexivity|]. split; [vm_compute; split; reflexivity|].
  intros (s & H & K). injection H as <-. cbn in K. intuition discriminate.
Qed.
