(** Runs in which cx_hmac_sha256 fails have counterparts in which it does not. *)
From Coq Require Import String.
From Verif Require Import Lib Base CodecProofs Env Bip32 Base58 Address ErgoTree Schnorr RwBuffer SpecBuffer RwBufferProofs TxTable TxBox TxInput TxFull
  Amounts OutputInfo Format InputFrame UiFlow P2pkOp App SpecApdu SpecTrace SpecTx SpecSign SpecScreen Moves
  Fault LowTx LowOp LowApp SpecFault LowTxProofs LowOpProofs LowProofs FaultProofs Buttons SpecButtons FaultButtons SpecFaultRun SpecTags TagBase.

#[local] Arguments N.eqb : simpl never.
#[local] Arguments N.ltb : simpl never.
#[local] Arguments N.leb : simpl never.
#[local] Arguments N.sub : simpl never.
#[local] Arguments blen : simpl never.
#[local] Arguments app : simpl never.

(** * One event *)
Lemma loop_right : forall E F secret rounds i nonces, low_schnorr_init_loop E F secret i rounds nonces = low_schnorr_init_loop E (tags_right F) secret i rounds nonces.
Proof.
  intros E F secret. induction rounds as [|k IH]; intros i nonces; [reflexivity|]. cbn [low_schnorr_init_loop tags_right f_round].
  destruct (f_round F i) as [[]|]; try apply IH. destruct (schnorr_round E secret _); [reflexivity|apply IH].
Qed.
Lemma op_init_right : forall E F nonces p net, low_p2pk_init E F nonces p net = low_p2pk_init E (tags_right F) nonces p net.
Proof.
  intros E F nonces p net. unfold low_p2pk_init. change (low_private_key E (tags_right F) p) with (low_private_key E F p).
  destruct (negb (ergo_path_validate p V_ADDRESS_GE5)); [reflexivity|]. destruct (negb _); [reflexivity|]. destruct (low_private_key E F p) as [[s c]|]; [|reflexivity].
  rewrite <- loop_right. reflexivity.
Qed.
Lemma init_right : forall E F st data b r, low_sign_init E F st data b r = low_sign_init E (tags_right F) st data b r.
Proof. intros E F st data b r. unfold low_sign_init. destruct (parse_sign_init b data) as [[[net p] token]|]; [|reflexivity]. rewrite op_init_right. reflexivity. Qed.
Lemma exec_right : forall E F key op sub data, sub <> 0x12 -> low_sign_exec E F key op sub data = low_sign_exec E (tags_right F) key op sub data.
Proof. intros E F key op sub data H. destruct sub as [|q]; [reflexivity|]. do 6 (try destruct q as [q|q|]); try reflexivity; lia. Qed.
Lemma command_right : forall E F st g sub data, sub <> 0x12 -> low_sign_command E F st g sub data = low_sign_command E (tags_right F) st g sub data.
Proof. intros E F st g sub data H. unfold low_sign_command. rewrite exec_right by exact H. reflexivity. Qed.
Lemma sign_right : forall E F st data sub p2 r, sub <> 0x12 -> low_handler_sign E F st data sub p2 r = low_handler_sign E (tags_right F) st data sub p2 r.
Proof.
  intros E F st data sub p2 r H. unfold low_handler_sign. rewrite <- init_right. destruct (st_busy st); [reflexivity|]. destruct (sub =? 1); [reflexivity|].
  destruct (is_sign_subcommand sub); [|reflexivity]. destruct (st_cmd st); try reflexivity. destruct (st_ctx st); try reflexivity.
  destruct (p2 =? _); [|reflexivity]. apply command_right. exact H.
Qed.
Lemma attest_right : forall E F st data sub p2 r, sub <> 5 -> low_handler_attest E F st data sub p2 r = low_handler_attest E (tags_right F) st data sub p2 r.
Proof. intros E F st data sub p2 r H. unfold low_handler_attest. destruct (st_busy st); [reflexivity|]. destruct sub as [|q]; [reflexivity|]. do 3 (try destruct q as [q|q|]); try reflexivity; lia. Qed.

Definition retags (E : env) (F : faults) (st : state) (e : event) : Prop :=
  fstep E F st e = fstep E (tags_right F) st e \/
  (hmac_failed F /\ exists e' outs', event_ok e' /\ retagged (e, snd (fstep E F st e)) (e', outs') /\ fstep E (tags_right F) st e' = (fst (fstep E F st e), outs')).

(** An input frame: what is done with it depends on what is read from it. *)
Definition take_frame (F : faults) (st : state) (p2 : N) (x : out input_frame) : result :=
  if p2 =? 0 then (st, [resp SW_WRONG_P1P2])
  else if st_busy st then (st, [resp SW_BUSY])
  else match st_cmd st with
  | CMD_SIGN =>
      match st_ctx st with
      | X_SIGN g =>
          if p2 =? sg_session g then
            match sg_state g with
            | SG_APPROVED =>
                match bind x (fun f =>
                      bind (if if_index f =? 0
                            then p2pk_add_input (sg_op g) (if_box_id f) (if_value f) (if_frames_count f) (if_ext_len f)
                            else Ok (sg_op g)) (fun op =>
                      low_p2pk_add_input_tokens F op (if_box_id f) (if_index f) (if_tokens f))) with
                | Fail s => handler_err st s
                | Ok op => (set_ctx st (X_SIGN (mk_sign SG_APPROVED (sg_session g) op)), [resp SW_OK])
                end
            | _ => handler_err st SW_BAD_STATE
            end
          else handler_err st SW_BAD_SESSION_ID
      | _ => handler_err st SW_UB
      end
  | _ => handler_err st SW_BAD_STATE
  end.
Lemma taken : forall E F st p2 data r,
  fstep E F st (Apdu CLA INS_SIGN 0x12 p2 data r) = take_frame F st p2 (parse_input_frame (hmac_env E F) (st_key st) data).
Proof.
  intros E F st p2 data r. cbn [fstep]. unfold low_apdu_dispatcher, take_frame. change (negb (CLA =? 0xE0)) with false. cbv iota. cbv [INS_SIGN].
  change ((0x12 =? 0) || (p2 =? 0)) with (p2 =? 0). destruct (p2 =? 0); [reflexivity|]. unfold low_handler_sign. destruct (st_busy st); [reflexivity|].
  change (0x12 =? 1) with false. change (is_sign_subcommand 0x12) with true. cbv iota. destruct (st_cmd st); reflexivity.
Qed.
Lemma take_refused : forall F st p2, (forall x y, take_frame F st p2 x = take_frame F st p2 y) \/
  forall s, take_frame F st p2 (Fail s) = handler_err st s.
Proof.
  intros F st p2. unfold take_frame.
  destruct (p2 =? 0); [left; reflexivity|]. destruct (st_busy st); [left; reflexivity|].
  destruct (st_cmd st); try (left; reflexivity). destruct (st_ctx st) as [|c|c|c|g]; try (left; reflexivity).
  destruct (p2 =? sg_session g); [|left; reflexivity]. destruct (sg_state g); try (left; reflexivity). right. reflexivity.
Qed.
Lemma sign_retags : forall E F st p2 data r, env_ok E -> leaves_bytes F -> event_ok (Apdu CLA INS_SIGN 0x12 p2 data r) ->
  retags E F st (Apdu CLA INS_SIGN 0x12 p2 data r).
Proof.
  intros E F st p2 data r HE HF Ho. destruct Ho as (O1 & O2 & O3 & O4 & Hb & Hlen & O7 & O8).
  unfold retags. rewrite !taken. change (parse_input_frame (hmac_env E (tags_right F))) with (parse_input_frame E).
  change (take_frame (tags_right F)) with (take_frame F).
  destruct (take_refused F st p2) as [Same|Refused]; [left; apply Same|].
  destruct (parse_retagged E F (st_key st) data HE HF Hb Hlen) as [->|(Hf & data' & Hb' & Hl' & K & W)]; [left; reflexivity|]. right. split; [exact Hf|].
  exists (Apdu CLA INS_SIGN 0x12 p2 data' r), (snd (take_frame F st p2 (parse_input_frame (hmac_env E F) (st_key st) data))).
  split; [split; [exact O1|]; split; [exact O2|]; split; [exact O3|]; split; [exact O4|]; split; [exact Hb'|]; split; [exact Hl'|]; split; [exact O7|exact O8]|]. split.
  - destruct W as [(a & t & t' & b & -> & -> & Lt & Lt' & La)|(s & Ns & W)]; [apply rt_taken; assumption|].
    rewrite W, Refused. destruct Ns as [->| ->]; apply rt_refused; discriminate.
  - rewrite taken. change (parse_input_frame (hmac_env E (tags_right F))) with (parse_input_frame E). change (take_frame (tags_right F)) with (take_frame F).
    rewrite <- K. apply surjective_pairing.
Qed.

Lemma attest_retags : forall E F st p2 data r, env_ok E -> stack_ok F -> leaves_bytes F -> event_ok (Apdu CLA INS_ATTEST 5 p2 data r) -> st_range E st ->
  retags E F st (Apdu CLA INS_ATTEST 5 p2 data r).
Proof.
  intros E F st p2 data r HE HS HF Ho Hr. unfold retags. cbn [fstep]. unfold low_apdu_dispatcher. change (negb (CLA =? 0xE0)) with false. cbv iota. cbv [INS_ATTEST].
  change ((5 =? 0) || (p2 =? 0)) with (p2 =? 0). destruct (p2 =? 0) eqn:P; [left; reflexivity|]. unfold low_handler_attest. destruct (st_busy st) eqn:B; [left; reflexivity|].
  destruct (st_cmd st) eqn:C; try (left; reflexivity). destruct (st_ctx st) as [|c|c|c|g] eqn:X; try (left; reflexivity).
  destruct (p2 =? at_session c) eqn:S; [|left; reflexivity]. unfold low_attest_get_frame. destruct (at_state c) eqn:A; try (left; reflexivity).
  destruct (bind (rd (read_u8 data)) _) as [i|s] eqn:R; [|left; reflexivity]. destruct (get_frames_count (blen (at_tokens c)) <=? i) eqn:Gi; [left; reflexivity|].
  unfold st_range in Hr. rewrite X in Hr. destruct Hr as [_ Hr]. destruct (Hr A) as (R1 & R2 & R3). apply N.leb_gt in Gi.
  rewrite low_frame_env. pose proof (frame_same (hmac_env E F) (tags_right F) (left_env E F HE HF) (right_stack F HS) (right_hmac F) (st_key st) (at_id c) (bx_value (at_box c)) (at_tokens c) i R1 R2 R3 Gi) as K1.
  pose proof (frame_same E (tags_right F) HE (right_stack F HS) (right_hmac F) (st_key st) (at_id c) (bx_value (at_box c)) (at_tokens c) i R1 R2 R3 Gi) as K2.
  rewrite K1, K2. unfold attested_frame.
  destruct (hmac_either E F (st_key st) (frame_data (at_id c) (bx_value (at_box c)) (at_tokens c) i)) as [Hf| ->]; [|left; reflexivity]. right. split; [exact Hf|].
  eexists _, _. split; [exact Ho|]. split.
  - apply rt_given with (t' := firstn FRAME_SIGNATURE_LEN (e_hmac E (st_key st) (frame_data (at_id c) (bx_value (at_box c)) (at_tokens c) i)));
      apply firstn_length_le; [rewrite (ok_hmac_len _ (left_env E F HE HF))|rewrite (ok_hmac_len E HE)]; cbv [FRAME_SIGNATURE_LEN]; lia.
  - cbn [fstep fst]. unfold low_apdu_dispatcher. change (negb (CLA =? 0xE0)) with false. cbv iota. change ((5 =? 0) || (p2 =? 0)) with (p2 =? 0). rewrite P.
    unfold low_handler_attest. rewrite B, C, X, S. unfold low_attest_get_frame. rewrite A, R. apply N.leb_gt in Gi. rewrite Gi, K2. reflexivity.
Qed.

Lemma step_retags : forall E F st e, env_ok E -> stack_ok F -> leaves_bytes F -> event_ok e -> st_range E st -> retags E F st e.
Proof.
  intros E F st e HE HS HF Ho Hr. destruct e as [cla ins p1 p2 data r| | | | | | | |]; try (left; reflexivity).
  destruct (N.eq_dec cla 0xE0) as [->|Nc].
  2:{ left. cbn [fstep]. unfold low_apdu_dispatcher. apply N.eqb_neq in Nc. rewrite Nc. reflexivity. }
  destruct (N.eq_dec ins 0x21) as [->|N21].
  { destruct (N.eq_dec p1 0x12) as [->|Np]; [apply sign_retags; assumption|]. left. cbn [fstep]. unfold low_apdu_dispatcher. rewrite <- sign_right by exact Np. reflexivity. }
  destruct (N.eq_dec ins 0x20) as [->|N20].
  { destruct (N.eq_dec p1 5) as [->|Np]; [apply attest_retags; assumption|]. left. cbn [fstep]. unfold low_apdu_dispatcher. rewrite <- attest_right by exact Np. reflexivity. }
  left. cbn [fstep]. unfold low_apdu_dispatcher. destruct ins as [|q]; [reflexivity|]. do 6 (try destruct q as [q|q|]); try reflexivity; lia.
Qed.

(** * Histories and runs by buttons *)
Lemma retagged_diverges : forall o o', retagged o o' -> ~ In ODiverge (snd o) -> ~ In ODiverge (snd o').
Proof. intros o o' R H. destruct R; cbn [snd] in *; try exact H; intros [K|[]]; discriminate. Qed.
Lemma history_retagged : forall E key tr st, env_ok E -> hhistory E key tr st ->
  exists tr', Forall2 tagged_right tr tr' /\ fhistory E key tr' st.
Proof.
  intros E key tr st HE H. induction H as [|tr st F e outs st' H IH HS HF He Hs Hd]; [exists []; split; constructor|].
  destruct IH as (tr' & R & Hh). destruct (shadow_history _ _ _ _ HE Hh) as (tr2 & _ & Hh2).
  destruct (step_retags E F st e HE HS HF He (reachable_range _ _ _ _ HE Hh2)) as [Q|(Hf & e' & outs' & He' & Rt & Q)]; rewrite Hs in Q.
  - exists (tr' ++ [(tags_right F, (e, outs))]). split; [apply Forall2_app; [exact R|constructor; [apply tr_same|constructor]]|].
    eapply fhistory_step; [exact Hh|apply right_stack, HS|apply right_hmac|exact He|symmetry; exact Q|exact Hd].
  - rewrite Hs in Rt. cbn [fst snd] in *. exists (tr' ++ [(tags_right F, (e', outs'))]). split; [apply Forall2_app; [exact R|constructor; [apply tr_other; assumption|constructor]]|].
    eapply fhistory_step; [exact Hh|apply right_stack, HS|apply right_hmac|exact He'|exact Q|exact (retagged_diverges _ _ Rt Hd)].
Qed.
