(** One event with failing calls, on a state with values in range. *)
From Coq Require Import String.
From Verif Require Import Lib Base CodecProofs Env Bip32 Base58 Address ErgoTree Schnorr RwBuffer SpecBuffer RwBufferProofs TxTable TxBox TxInput TxFull
  Amounts OutputInfo Format InputFrame UiFlow P2pkOp App SpecTrace SpecScreen Moves Fault LowTx LowOp LowApp SpecFault LowTxProofs LowOpProofs.

#[local] Arguments N.eqb : simpl never.
#[local] Arguments N.ltb : simpl never.
#[local] Arguments N.leb : simpl never.
#[local] Arguments N.sub : simpl never.
#[local] Arguments blen : simpl never.
#[local] Arguments app : simpl never.

(** * Ranges of parameters *)
Lemma rd_range : forall n l v r, rd (read_be n l) = Ok (v, r) -> bytes_ok l = true -> v < 256 ^ N.of_nat n /\ bytes_ok r = true.
Proof. intros n l v r H Hb. unfold rd in H. destruct (read_be n l) as [[a b]|] eqn:R; [|discriminate]. inv H. eapply read_be_range; eassumption. Qed.
Lemma rd_bytes_rest : forall n l v r, rd (read_bytes n l) = Ok (v, r) -> bytes_ok l = true -> bytes_ok r = true.
Proof. intros n l v r H Hb. unfold rd in H. destruct (read_bytes n l) as [[a b]|] eqn:R; [|discriminate]. inv H. eapply read_bytes_rest_ok; eassumption. Qed.
Lemma Forall_cut : forall A (P : A -> Prop) l n m, Forall P l -> Forall P (firstn n (skipn m l)).
Proof.
  intros A P l n m H. rewrite <- (firstn_skipn m l) in H. apply Forall_app in H as [_ H].
  rewrite <- (firstn_skipn n (skipn m l)) in H. apply Forall_app in H as [H _]. exact H.
Qed.
Lemma bind_inv : forall A B (x : out A) (f : A -> out B) b, bind x f = Ok b -> exists a, x = Ok a /\ f a = Ok b.
Proof. intros A B [a|s] f b H; [exists a; auto|discriminate]. Qed.

Ltac read_step H :=
  let a := fresh "v" in let l := fresh "l" in let K := fresh "K" in let R := fresh "R" in let B := fresh "B" in
  apply bind_inv in H as ([a l] & K & H); apply rd_range in K as [R B]; [|assumption].

Lemma tx_start_range : forall data i d t o, parse_tx_start data = Ok (i, d, t, o) -> bytes_ok data = true -> i < two16.
Proof.
  intros data i d t o H Hb. unfold parse_tx_start in H. read_step H. read_step H. read_step H. read_step H.
  unfold finished in H. destruct l2; [|discriminate]. assert (i = v) as -> by congruence. exact R.
Qed.
Lemma output_init_range : forall data v t h n r, parse_output_init data = Ok (v, t, h, n, r) -> bytes_ok data = true -> v < two64.
Proof.
  intros data v t h n r H Hb. unfold parse_output_init in H. read_step H. do 4 read_step H.
  unfold finished in H. destruct l3; [|discriminate]. assert (v = v0) as -> by congruence. exact R.
Qed.
Lemma attest_init_range : forall b data a, parse_attest_init b data = Ok a -> bytes_ok data = true -> ap_value a < two64.
Proof.
  intros b data a H Hb. unfold parse_attest_init in H. apply bind_inv in H as ([id l] & K & H). apply rd_bytes_rest in K; [|assumption].
  do 6 read_step H. apply bind_inv in H as ([t l6] & _ & H). unfold finished in H. destruct l6; [|discriminate]. inv H. cbn [ap_value]. exact R0.
Qed.
Lemma da_range : forall b data net p t, parse_da b data = Ok (net, p, t) -> bytes_ok data = true ->
  net < two8 /\ parse_da b (255 :: tl data) = Ok (255, p, t).
Proof.
  intros b data net p t H Hb. unfold parse_da in *. apply bind_inv in H as ([v l] & K & H).
  pose proof K as K'. apply rd_range in K' as [R B]; [|assumption].
  destruct data as [|x data]; [discriminate|]. change (rd (read_u8 (x :: data))) with (@Ok (N * bytes) (be_value [x], data)) in K.
  assert (be_value [x] = v /\ data = l) as [<- <-] by (split; congruence). clear K. cbn [tl].
  change (rd (read_u8 (255 :: data))) with (@Ok (N * bytes) (255, data)). cbn [bind].
  apply bind_inv in H as ([n l1] & -> & H). cbn [bind]. apply bind_inv in H as ([q l2] & -> & H). cbn [bind].
  apply bind_inv in H as ([tk l3] & -> & H). cbn [bind]. unfold finished in *. destruct l3; [|discriminate]. split; [|congruence].
  assert (net = be_value [x]) as -> by congruence. exact R.
Qed.

(** * States in range *)
Definition info_range (o : option output_info) : Prop :=
  match o with Some o => type_range (oi_type o) | None => True end.
Definition st_range (E : env) (st : state) : Prop :=
  match st_ctx st with
  | X_NONE => True
  | X_EPK c => length (ep_key c) = 65%nat /\ length (ep_chain c) = 32%nat
  | X_DA c => length (da_address c) = 38%nat
  | X_ATTEST c =>
      (at_state c = AT_APPROVED -> at_index c < two16 /\ box_range (attest_bs c)) /\
      (at_state c = AT_FINISHED -> length (at_id c) = 32%nat /\ blen (at_tokens c) <= 20 /\
                                   Forall (fun t => length (fst t) = 32%nat) (at_tokens c))
  | X_SIGN g =>
      op_range (sg_op g) /\ op_network (sg_op g) < two8 /\
      match op_union_of (sg_op g) with OU_TX t => info_range (tx_output t) | _ => True end
  end.

(** The HMAC, whose result the code ignores, works. *)
Section LowProofs.
  Variable E : env.
  Variable F : faults.
  Hypothesis HE : env_ok E.
  Hypothesis HF : stack_ok F.
  Hypothesis HM : hmac_works F.

  (** * Responses *)
  Lemma epk_response_same : forall pk chain, length pk = 65%nat -> length chain = 32%nat ->
    low_epk_response F pk chain = Ok (epk_response pk chain).
  Proof.
    intros pk chain Hp Hc. unfold low_epk_response, epk_response. destruct (compress_pieces pk ltac:(lia)) as [Hk Hl].
    set (a := be_bytes 1 _) in *. set (b := firstn 32 (skipn 1 pk)) in *.
    assert (Hcat : concat [a; b; chain] = compress pk ++ chain).
    { rewrite <- Hk. cbn [concat]. rewrite !app_nil_r, app_assoc. reflexivity. }
    destruct (array_write F 65 [a; b; chain] HF ltac:(reflexivity)) as (x & -> & _ & _ & _ & _ & _ & _ & Hw).
    { rewrite Hcat, blen_app, Hl. unfold blen. rewrite Hc. discriminate. }
    cbn [send_written]. rewrite Hw, Hcat. reflexivity.
  Qed.
  Lemma da_response_same : forall a, length a = 38%nat -> low_da_response F a = Ok a.
  Proof.
    intros a Ha. unfold low_da_response. destruct (array_write F 38 [a] HF ltac:(reflexivity)) as (x & -> & _ & _ & _ & _ & _ & _ & Hw).
    { cbn [concat]. rewrite app_nil_r. unfold blen. rewrite Ha. discriminate. }
    cbn [send_written]. rewrite Hw. cbn [concat]. rewrite app_nil_r. reflexivity.
  Qed.

  Lemma hmac_same : forall k l, e_hmac (hmac_env E F) k l = e_hmac E k l.
  Proof. intros k l. cbn. rewrite HM. reflexivity. Qed.
  Lemma parse_frame_same : forall key data, parse_input_frame (hmac_env E F) key data = parse_input_frame E key data.
  Proof. intros key data. unfold parse_input_frame. rewrite hmac_same. reflexivity. Qed.

  Lemma pairs_concat : forall l : list (bytes * N), concat (flat_map (fun t => [fst t; be_bytes 8 (snd t)]) l) = concat (map token_pair l).
  Proof.
    induction l as [|t l IH]; [reflexivity|]. cbn [flat_map map concat]. change ([fst t; be_bytes 8 (snd t)] ++ ?x) with (fst t :: be_bytes 8 (snd t) :: x).
    cbn [concat]. rewrite IH. unfold token_pair. rewrite app_assoc. reflexivity.
  Qed.
  Lemma pairs_len : forall l : list (bytes * N), Forall (fun t => length (fst t) = 32%nat) l -> blen (concat (map token_pair l)) = 40 * blen l.
  Proof.
    induction l as [|t l IH]; intros H; [reflexivity|]. inversion H; subst. cbn [map concat]. rewrite blen_app, IH by assumption.
    unfold token_pair. rewrite blen_app. unfold blen. rewrite be_bytes_length. rewrite H2. cbn [length]. lia.
  Qed.
  Lemma frame_same : forall key id value tokens index, length id = 32%nat -> blen tokens <= 20 ->
    Forall (fun t : bytes * N => length (fst t) = 32%nat) tokens -> index < get_frames_count (blen tokens) ->
    low_attested_frame E F key id value tokens index = Ok (attested_frame (e_hmac E) key id value tokens index).
  Proof.
    intros key id value tokens index Hid Hn Ht Hi. unfold low_attested_frame.
    assert (Hfc : get_frames_count (blen tokens) <= 5).
    { unfold get_frames_count, u8, FRAME_MAX_TOKENS_COUNT, two8.
      assert ((blen tokens + (4 - 1)) / 4 <= 5) by (apply N.lt_succ_r; apply N.div_lt_upper_bound; lia).
      rewrite N.mod_small by lia. destruct (_ =? 0); lia. }
    assert (Hoff : u8 (index * FRAME_MAX_TOKENS_COUNT) = index * FRAME_MAX_TOKENS_COUNT)
      by (unfold u8, FRAME_MAX_TOKENS_COUNT, two8; apply N.mod_small; lia).
    assert (Hcat : concat (frame_pieces id value tokens index) = frame_data id value tokens index).
    { unfold frame_pieces, frame_data. rewrite concat_app, pairs_concat, Hoff.
      set (tc := N.min _ _). assert (Htc : tc <= 4) by (unfold tc, FRAME_MAX_TOKENS_COUNT; lia).
      cbn [concat]. rewrite app_nil_r, <- !app_assoc. 
      assert (B1 : forall v, v < 256 -> be_bytes 1 v = [v]).
      { intros v Hv. change (be_bytes 1 v) with [v mod 256]. rewrite N.mod_small by exact Hv. reflexivity. }
      rewrite !B1 by lia. reflexivity. }
    assert (Hlen : blen (frame_data id value tokens index) <= 203).
    { unfold frame_data. rewrite !blen_app. rewrite pairs_len by (apply Forall_cut; exact Ht).
      set (tc := N.min _ _). assert (Htc : tc <= 4) by (unfold tc, FRAME_MAX_TOKENS_COUNT; lia).
      unfold blen at 1. rewrite Hid. change (blen [_]) with 1. change (blen (be_bytes 8 value)) with (N.of_nat (length (be_bytes 8 value))). rewrite be_bytes_length.
      assert (blen (firstn (N.to_nat tc) (skipn (N.to_nat (index * FRAME_MAX_TOKENS_COUNT)) tokens)) <= tc).
      { unfold blen. rewrite firstn_length. lia. }
      lia. }
    set (d := frame_data id value tokens index) in *.
    destruct (init_valid (f_stack F 260) 258) as [Hv Hu]; [rewrite HF; discriminate|reflexivity|].
    destruct (write_all_ok (frame_pieces id value tokens index) _ Hv) as (b & -> & Hb & Ho & Hw & Hc & Hm & Hr).
    { rewrite Hcat. cbn [rw_buffer_init rb_cap rb_wpos]. lia. }
    rewrite Hu, Hcat in Hr. change ([] ++ d) with d in Hr. rewrite Hcat in Hw. cbn [rw_buffer_init rb_wpos rb_cap rb_off rb_mem] in Ho, Hw, Hc, Hm.
    assert (Hmem : blen (rb_mem b) = 260) by (unfold blen; rewrite Hm; apply HF).
    unfold rw_buffer_can_write. rewrite space_valid by assumption. replace (32 <=? rb_cap b - rb_wpos b) with true by lia. cbn [negb].
    rewrite written_unread by assumption. rewrite Hr, hmac_same.
    assert (Hh : blen (e_hmac E key d) = 32) by (unfold blen; rewrite (ok_hmac_len E HE); reflexivity).
    destruct (mem_put_ok (rb_mem b) (rb_wpos b) (e_hmac E key d)) as (m & -> & M1 & M2 & M3 & M4); [lia|].
    set (b2 := mk_rwb m (rb_off b) (rb_wpos b) (rb_cap b)).
    assert (Hb2 : buffer_valid b2).
    { unfold buffer_valid, b2. cbn [rb_off rb_wpos rb_cap rb_mem]. destruct Hb as (G1 & G2 & G3 & G4). repeat split; try assumption. unfold blen in *. rewrite M1. exact G3. }
    rewrite seek_write_cur_cases by (assumption || reflexivity).
    replace (16 <=? rb_cap b2 - rb_wpos b2) with true by (unfold b2; cbn [rb_cap rb_wpos]; lia).
    cbn [send_written].
    assert (Hb3 : buffer_valid (rb_set_wpos b2 (rb_wpos b2 + 16))).
    { unfold buffer_valid, rb_set_wpos, b2. cbn [rb_off rb_wpos rb_cap rb_mem]. repeat split; try lia. unfold blen in *. rewrite M1. lia. }
    rewrite written_unread by assumption. f_equal. unfold attested_frame. fold d.
    unfold unread, rb_set_wpos, b2. cbn [rb_off rb_wpos rb_cap rb_mem]. rewrite Ho. cbn [N.to_nat skipn].
    assert (Hw' : rb_wpos b = blen d) by lia.
    assert (Hd : firstn (N.to_nat (rb_wpos b)) m = d).
    { rewrite M2. transitivity (unread b); [|exact Hr]. unfold unread. rewrite Ho, N.sub_0_r. reflexivity. }
    replace (N.to_nat (rb_wpos b + 16 - 0)) with (N.to_nat (rb_wpos b) + 16)%nat by lia.
    rewrite <- (firstn_skipn (N.to_nat (rb_wpos b)) m) at 1. rewrite Hd.
    assert (Hdl : length d = N.to_nat (rb_wpos b)) by (rewrite Hw'; unfold blen; rewrite Nat2N.id; reflexivity).
    rewrite <- Hdl at 1. rewrite firstn_app_2. f_equal.
    transitivity (firstn 16 (firstn (length (e_hmac E key d)) (skipn (N.to_nat (rb_wpos b)) m))).
    - rewrite firstn_firstn. rewrite (ok_hmac_len E HE). reflexivity.
    - rewrite M3. reflexivity.
  Qed.

  (** * Handlers *)
  (** The same, or refused with a status word for failing calls, the command dropped. *)
  Definition simh (st : state) (x y : result) : Prop :=
    x = y \/ (call_failed F /\ exists s, fault_status s /\ x = handler_err st s).
  Lemma simh_refl : forall st x, simh st x x. Proof. left. reflexivity. Qed.
  Lemma simh_err : forall st st0 y s, call_failed F -> fault_status s -> set_command st0 CMD_NONE = set_command st CMD_NONE ->
    simh st (handler_err st0 s) y.
  Proof. intros st st0 y s Hf Hs He. right. split; [assumption|]. exists s. split; [assumption|]. unfold handler_err. rewrite He. reflexivity. Qed.

  Lemma generate_len : forall p pk ch, generate_public_key E p = Some (pk, ch) -> length pk = 65%nat /\ length ch = 32%nat.
  Proof.
    intros p pk ch H. unfold generate_public_key in H. destruct (e_derive E p) as [[s c]|] eqn:D; [|discriminate].
    destruct (e_mulG E s) as [w|] eqn:W; [|discriminate]. inv H. split; [eapply ok_mulG_len; eassumption|].
    destruct (ok_derive_len E HE _ _ _ D) as (_ & L & _). exact L.
  Qed.

  Lemma handler_epk_sim : forall st data b, simh st (low_handler_epk E F st data b) (handler_epk E st data b).
  Proof.
    intros st data b. unfold low_handler_epk, handler_epk. destruct (st_busy st); [apply simh_refl|]. cbv zeta.
    destruct (parse_epk b data) as [[p token]|]; [|apply simh_refl]. destruct (ergo_path_validate p V_ACCOUNT_GE3); cbn [negb]; [|apply simh_refl].
    destruct (key_sim E F p) as [->|[Hf ->]]; [|apply simh_err; [assumption|apply st_crypto|reflexivity]].
    destruct (generate_public_key E p) as [[pk ch]|] eqn:G; [|apply simh_refl]. destruct (generate_len _ _ _ G) as [L1 L2].
    rewrite epk_response_same by assumption. apply simh_refl.
  Qed.

  Lemma address_len : forall net pk a, ergo_address_from_pubkey (e_blake E) net pk = Some a -> (33 <= length pk)%nat -> length a = 38%nat.
  Proof.
    intros net pk a H L. unfold ergo_address_from_pubkey, address_of in H. destruct (network_id_is_valid net); [|discriminate]. cbn [negb] in H. cbv zeta in H.
    assert (a = (u8 (1 + net) :: compress pk) ++ firstn 4 (e_blake E (u8 (1 + net) :: compress pk))) as -> by congruence.
    rewrite app_length. rewrite firstn_length_le by (rewrite (ok_blake_len E HE); lia).
    destruct (compress_pieces pk L) as [_ K]. unfold blen in K. cbn [length]. lia.
  Qed.
  Lemma address_fail : forall size type net content s, low_address E F size type net content = Fail s ->
    s = SW_ADDRESS_GENERATION_FAILED \/ s = SW_UB.
  Proof. intros size type net content s. unfold low_address. repeat case_match; intros K; inv K; auto. Qed.
  Lemma handler_da_sim : forall st data d b, bytes_ok data = true ->
    simh st (low_handler_da E F st data d b) (handler_da E st data d b) \/
    (call_failed F /\ st_busy st = false /\ low_handler_da E F st data d b = (set_command st CMD_DA, [resp SW_ADDRESS_GENERATION_FAILED]) /\
     handler_da E st (255 :: tl data) d b = (set_command st CMD_DA, [resp SW_ADDRESS_GENERATION_FAILED])).
  Proof.
    intros st data d b Hb. unfold low_handler_da, handler_da. destruct (st_busy st); [left; apply simh_refl|]. cbv zeta.
    destruct (parse_da b data) as [[[net p] token]|] eqn:P; [|left; apply simh_refl]. destruct (da_range _ _ _ _ _ P Hb) as [Hn ->].
    destruct (ergo_path_validate p V_ADDRESS_GE5); cbn [negb]; [|left; apply simh_refl].
    destruct (key_sim E F p) as [->|[Hf ->]]; [|left; apply simh_err; [assumption|apply st_crypto|reflexivity]].
    destruct (generate_public_key E p) as [[pk ch]|] eqn:G; [|left; apply simh_refl]. destruct (generate_len _ _ _ G) as [L1 L2].
    destruct (pubkey_address_sim E F HF net pk HE Hn ltac:(lia)) as [->|(Hf & s & Hs & Hst)].
    - left. destruct (ergo_address_from_pubkey (e_blake E) net pk) as [a|] eqn:A; cbn [of_address]; [|apply simh_refl].
      rewrite da_response_same by (eapply address_len; [exact A|lia]). apply simh_refl.
    - right. split; [assumption|]. split; [reflexivity|].
      assert (s = SW_ADDRESS_GENERATION_FAILED) as ->.
      { destruct (address_fail _ _ _ _ _ Hs) as [K|K]; [exact K|]. subst s. unfold fault_status in Hst. intuition discriminate. }
      rewrite Hs. split; reflexivity.
  Qed.

  Lemma attest_init_sim : forall st st0 data b r, bytes_ok data = true -> set_command st0 CMD_NONE = set_command st CMD_NONE ->
    simh st (low_attest_init F st0 data b r) (attest_init st0 data b r).
  Proof.
    intros st st0 data b r Hb He. unfold low_attest_init, attest_init. destruct (parse_attest_init b data) as [a|] eqn:P; [|apply simh_refl].
    destruct (f_init F) eqn:Hi; [apply simh_err; [apply cf_init; assumption|apply st_hasher|assumption]|].
    destruct (box_init_sim F HF (ap_value a) (ap_tree_size a) (ap_height a) (ap_tokens_count a) (ap_regs_size a) [] ([] : list (token_id * N))) as [->|[Hf Hr]].
    - eapply attest_init_range; eassumption.
    - apply simh_refl.
    - destruct (low_box_init F _ _ _ _ _ _ _) as [x y]. cbn in Hr. subst x. cbn [res_pass negb]. apply simh_err; [assumption|apply st_hasher|assumption].
  Qed.
  Lemma check_finished_sim : forall st c, at_index c < two16 ->
    simh st (low_check_box_finished E F st c) (check_box_finished E st c).
  Proof.
    intros st c Hi. unfold low_check_box_finished, check_box_finished. destruct (bx_state (at_box c)); try apply simh_refl.
    destruct (box_id_hash_sim F HF (e_blake E) (attest_bs c) (at_id c) (at_index c) Hi) as [[Hf Hr]|(x & y & z & -> & ->)].
    - destruct (low_box_id_hash _ _ _ _ _) as [x [y z]]. cbn in Hr. subst x. apply simh_err; [assumption|apply st_hasher|reflexivity].
    - apply simh_refl.
  Qed.
  Lemma box_call_sim : forall st c f g, (at_state c = AT_APPROVED -> at_index c < two16) -> (at_state c = AT_APPROVED -> simr F (f (attest_bs c)) (g (attest_bs c))) ->
    simh st (low_attest_box_call E F st c f) (attest_box_call E st c g).
  Proof.
    intros st c f g Hi H. unfold low_attest_box_call, attest_box_call. destruct (at_state c) eqn:A; try apply simh_refl.
    destruct (H eq_refl) as [->|[Hf Hr]].
    - destruct (g (attest_bs c)) as [r s]. destruct r; try apply simh_refl. apply check_finished_sim. exact (Hi eq_refl).
    - destruct (f (attest_bs c)) as [r s]. cbn in Hr. subst r. apply simh_err; [assumption|apply st_hasher|reflexivity].
  Qed.
  Lemma handler_attest_sim : forall st data sub p2 r, bytes_ok data = true -> st_range E st ->
    simh st (low_handler_attest E F st data sub p2 r) (handler_attest E st data sub p2 r).
  Proof.
    intros st data sub p2 r Hb Hs. unfold low_handler_attest, handler_attest. destruct (st_busy st); [apply simh_refl|]. cbv zeta.
    assert (Hin : forall f g, (forall c, st_ctx st = X_ATTEST c -> simh st (f c) (g c)) ->
      simh st match st_cmd st with
        | CMD_ATTEST => match st_ctx st with X_ATTEST c => if p2 =? at_session c then f c else handler_err st SW_BAD_SESSION_ID | _ => handler_err st SW_UB end
        | _ => handler_err st SW_BAD_STATE end
        match st_cmd st with
        | CMD_ATTEST => match st_ctx st with X_ATTEST c => if p2 =? at_session c then g c else handler_err st SW_BAD_SESSION_ID | _ => handler_err st SW_UB end
        | _ => handler_err st SW_BAD_STATE end).
    { intros f g H. destruct (st_cmd st); try apply simh_refl. destruct (st_ctx st) as [|c|c|c|c]; try apply simh_refl.
      destruct (p2 =? at_session c); [|apply simh_refl]. apply H. reflexivity. }
    assert (Hc : forall c, st_ctx st = X_ATTEST c -> (at_state c = AT_APPROVED -> at_index c < two16 /\ box_range (attest_bs c)) /\
      (at_state c = AT_FINISHED -> length (at_id c) = 32%nat /\ blen (at_tokens c) <= 20 /\
                                   Forall (fun t => length (fst t) = 32%nat) (at_tokens c))).
    { intros c Hc. unfold st_range in Hs. rewrite Hc in Hs. exact Hs. }
    destruct sub as [|p]; [apply simh_refl|].
    destruct p as [p|p|]; [destruct p as [p|p|]; [|destruct p as [p|p|]|]|destruct p as [p|p|]; [|destruct p as [p|p|]|]|]; try apply simh_refl.
    - apply Hin. intros c Kc. destruct (Hc c Kc) as (_ & H). unfold low_attest_get_frame, attest_get_frame.
      destruct (at_state c); try apply simh_refl. destruct (H eq_refl) as (H3 & H4 & H5). destruct (bind _ _) as [index|]; [|apply simh_refl].
      destruct (N.leb_spec (get_frames_count (blen (at_tokens c))) index); [apply simh_refl|].
      rewrite frame_same by assumption. apply simh_refl.
    - apply Hin. intros c Kc. destruct (Hc c Kc) as (H & _). apply box_call_sim; [intros K; exact (proj1 (H K))|]. intros K. destruct (H K) as [H1 H2].
      apply box_add_tokens_sim; try assumption; try reflexivity; exact I.
    - apply Hin. intros c Kc. destruct (Hc c Kc) as (H & _). apply box_call_sim; [intros K; exact (proj1 (H K))|]. intros K. destruct (H K) as [H1 H2].
      apply box_add_registers_sim; exact I.
    - apply Hin. intros c Kc. destruct (Hc c Kc) as (H & _). apply box_call_sim; [intros K; exact (proj1 (H K))|]. intros K. destruct (H K) as [H1 H2].
      apply box_add_tree_sim; try assumption; try reflexivity; exact I.
    - destruct (_ && _); [apply simh_refl|]. apply attest_init_sim; [assumption|reflexivity].
  Qed.

  Lemma sign_init_sim : forall st st0 data b r, set_command st0 CMD_NONE = set_command st CMD_NONE ->
    exists nonces, redrawn (r_nonces r) nonces /\ (nonces = r_nonces r \/ call_failed F) /\
      simh st (low_sign_init E F st0 data b r) (sign_init E st0 data b (mk_rnd nonces (r_ids r))).
  Proof.
    intros st st0 data b r He. unfold low_sign_init, sign_init.
    destruct (parse_sign_init b data) as [[[net p] token]|]; [|exists (r_nonces r); split; [apply rd_same|]; split; [left; reflexivity|apply simh_refl]].
    destruct (init_sim E F (r_nonces r) p net) as (l & H1 & H2 & H3). exists l. split; [exact H1|]. split; [exact H2|].
    cbn [r_nonces r_ids]. destruct H3 as [->|(Hf & s & -> & Hst)]; [apply simh_refl|]. apply simh_err; assumption.
  Qed.

  Lemma add_input_range : forall c id v n x c', op_range c -> p2pk_add_input c id v n x = Ok c' -> op_range c'.
  Proof.
    intros c id v n x c' Hc H. unfold p2pk_add_input in H.
    assert (G : bind (tx_call c (fun s => full_add_input s id n x)) (fun c =>
      bind (tx_call c full_set_input_callback) (fun c =>
      match amounts_add_input (op_amounts c) v with
      | (SW_OK, a) => Ok (mk_p2pk OP_INPUTS_STARTED (op_key c) (op_path c) (op_hash c) (op_network c) a (op_union_of c))
      | (s, _) => Fail s
      end)) = Ok c') by (destruct (op_state_of c); congruence). clear H.
    assert (Step : forall c0 f c1, (forall s, full_range (fs_full s) -> full_range (fs_full (snd (f s)))) ->
      op_range c0 -> tx_call c0 f = Ok c1 -> op_range c1).
    { intros c0 f c1 Hf H0 K. unfold tx_call in K. destruct (op_union_of c0) as [|t|] eqn:U; try discriminate.
      pose proof (op_range_tx _ _ H0 U) as Hg. specialize (Hf _ Hg).
      destruct (f (op_fs c0 t)) as [r s]. cbn [fst snd] in *. destruct (tx_result r); [discriminate|]. inv K. unfold op_range, op_put. cbn [op_union_of tx_full].
      exact Hf. }
    apply bind_inv in G as (c1 & G1 & G). apply bind_inv in G as (c2 & G2 & G).
    assert (H1 : op_range c1).
    { eapply Step; [|exact Hc|exact G1]; intros s Hs. unfold full_add_input, full_res_error. pose proof Hs as (R1 & R2 & R3 & R4 & _). repeat case_match; cbn [fst snd]; try assumption;
        unfold fs_with_full, fs_with_state, full_set_union, full_range in *; cbn; (repeat split); try assumption; exact I. }
    assert (H2 : op_range c2).
    { eapply Step; [|exact H1|exact G2]; intros s Hs. unfold full_set_input_callback, full_res_error. pose proof Hs as (R1 & R2 & R3 & R4 & _). repeat case_match; cbn [fst snd]; try assumption;
        unfold fs_with_full, fs_with_state, full_set_union, full_range in *; cbn; (repeat split); try assumption; exact I. }
    destruct (amounts_add_input (op_amounts c2) v) as [w a]. destruct w; inv G. exact H2.
  Qed.
  Lemma sign_exec_sim : forall key op sub data, bytes_ok data = true -> op_range op -> is_sign_subcommand sub = true ->
    exists x y a, low_sign_exec E F key op sub data = Some (x, a) /\ sign_exec E key op sub data = Some (y, a) /\ simo F x y.
  Proof.
    intros key op sub data Hb Ho Hsub.
    assert (Hcases : sub = 0x10 \/ sub = 0x11 \/ sub = 0x12 \/ sub = 0x13 \/ sub = 0x14 \/ sub = 0x15 \/ sub = 0x16 \/ sub = 0x17 \/
      sub = 0x18 \/ sub = 0x19 \/ sub = 0x1A \/ sub = 0x20) by (unfold is_sign_subcommand in Hsub; lia).
    destruct Hcases as [K|[K|[K|[K|[K|[K|[K|[K|[K|[K|[K|K]]]]]]]]]]]; subst sub; do 3 eexists; (split; [reflexivity|]); (split; [reflexivity|]); cbv beta.
    - apply simo_bind; [apply simo_refl|]. intros [[[i d] t] o] K. apply start_tx_sim; [assumption|]. eapply tx_start_range; eassumption.
    - apply simo_refl.
    - rewrite parse_frame_same. apply simo_bind; [apply simo_refl|]. intros f _. apply simo_bind; [apply simo_refl|]. intros c Hc. apply input_tokens_sim; [assumption|].
      destruct (if_index f =? 0); [eapply add_input_range; eassumption|]. inv Hc. assumption.
    - apply input_ext_sim'; assumption.
    - apply data_inputs_sim; assumption.
    - apply simo_bind; [apply simo_refl|]. intros [[[[v t] h] n] r] K. apply output_sim; [assumption|]. eapply output_init_range; eassumption.
    - apply tree_chunk_sim; assumption.
    - apply simo_bind; [apply simo_refl|]. intros _ _. apply tree_fee_sim; assumption.
    - apply simo_bind; [apply simo_refl|]. intros [p l] _. destruct (ergo_path_validate p V_ADDRESS_GE5); cbn [negb]; [|apply simo_refl].
      destruct (key_sim E F p) as [->|[Hf ->]]; [|apply simo_fail; [assumption|apply st_crypto]].
      destruct (generate_public_key E p) as [[pk ch]|] eqn:G; [|apply simo_refl]. destruct (generate_len _ _ _ G) as [L1 L2].
      apply tree_change_sim; [assumption|assumption|lia].
    - apply output_tokens_sim; assumption.
    - apply output_registers_sim.
    - apply simo_refl.
  Qed.
  Lemma handler_sign_sim : forall st data sub p2 r, bytes_ok data = true -> st_range E st ->
    exists nonces, redrawn (r_nonces r) nonces /\ (nonces = r_nonces r \/ call_failed F) /\
      simh st (low_handler_sign E F st data sub p2 r) (handler_sign E st data sub p2 (mk_rnd nonces (r_ids r))).
  Proof.
    intros st data sub p2 r Hb Hs. unfold low_handler_sign, handler_sign.
    destruct (st_busy st) eqn:B; [exists (r_nonces r); split; [apply rd_same|]; split; [left; reflexivity|apply simh_refl]|].
    destruct (sub =? 0x01).
    { destruct (_ && _); [exists (r_nonces r); split; [apply rd_same|]; split; [left; reflexivity|apply simh_refl]|].
      apply sign_init_sim. reflexivity. }
    exists (r_nonces r); split; [apply rd_same|]; split; [left; reflexivity|].
    destruct (is_sign_subcommand sub) eqn:S1; [|apply simh_refl]. destruct (st_cmd st); try apply simh_refl.
    destruct (st_ctx st) as [|c|c|c|g] eqn:X; try apply simh_refl. destruct (p2 =? sg_session g); [|apply simh_refl].
    unfold st_range in Hs. rewrite X in Hs. destruct Hs as (Hs & _).
    unfold low_sign_command, sign_command. destruct (sg_state g); try apply simh_refl.
    destruct (sign_exec_sim (st_key st) (sg_op g) sub data Hb Hs S1) as (x & y & a & -> & -> & [->|(Hf & s & -> & Hst)]); [apply simh_refl|].
    apply simh_err; [assumption|assumption|reflexivity].
  Qed.

  (** * Events *)
  Definition refuse : event := Apdu 0xE0 0x21 1 1 [] (mk_rnd [] []).
  Lemma refuse_step : forall st, st_busy st = false -> step E st refuse = (set_command st CMD_NONE, [OResp [] SW_NOT_ENOUGH_DATA]).
  Proof.
    intros st B. unfold refuse. cbn [step]. unfold apdu_dispatcher. change (negb (0xE0 =? 0xE0)) with false. cbv iota. change ((1 =? 0) || (1 =? 0)) with false. cbv iota.
    unfold handler_sign. rewrite B. reflexivity.
  Qed.
  Lemma resp_fault : forall s, fault_status s -> resp s = OResp [] s.
  Proof. intros s [->|[->|[->| ->]]]; reflexivity. Qed.
  (** The event went as if the calls had worked on the event [e']. *)
  Definition went (st : state) (e : event) : Prop :=
    exists e', same_event e e' /\ (e' = e \/ call_failed F) /\ fstep E F st e = step E st e'.
  (** The event was refused, and the state is that of a refused event. *)
  Definition failed (st : state) (e : event) : Prop :=
    call_failed F /\ exists s e' s', fault_status s /\ snd (fstep E F st e) = [OResp [] s] /\ event_ok e' /\
      step E st e' = (fst (fstep E F st e), [OResp [] s']) /\ s' <> SW_OK /\ dropped st (fst (fstep E F st e)) /\
      (if by_user e then e' = UiReject /\ s' = SW_DENY else by_user e' = false).
  Lemma went_same : forall st e, fstep E F st e = step E st e -> went st e.
  Proof. intros st e H. exists e. split; [apply se_refl|]. split; [left; reflexivity|exact H]. Qed.
  Lemma failed_here : forall st e e' s s' st', call_failed F -> fault_status s -> fstep E F st e = (st', [resp s]) -> event_ok e' ->
    step E st e' = (st', [OResp [] s']) -> s' <> SW_OK -> dropped st st' ->
    (if by_user e then e' = UiReject /\ s' = SW_DENY else by_user e' = false) -> failed st e.
  Proof.
    intros st e e' s s' st' Hf Hs H Ho He Hn Hd Hu. split; [assumption|]. exists s, e', s'. rewrite H. cbn [fst snd]. split; [assumption|].
    rewrite resp_fault by assumption. auto 10.
  Qed.
  Lemma simh_done : forall st e e', st_busy st = false -> simh st (fstep E F st e) (step E st e') ->
    same_event e e' -> (e' = e \/ call_failed F) -> by_user e = false -> went st e \/ failed st e.
  Proof.
    intros st e e' B [H|(Hf & s & Hs & H)] He Hc Hu.
    - left. exists e'. auto.
    - right. eapply failed_here; [exact Hf|exact Hs|exact H| |apply refuse_step; exact B|discriminate| |].
      + cbn. repeat split; try lia; constructor.
      + repeat split.
      + rewrite Hu. reflexivity.
  Qed.
  Lemma apdu_cases : forall st cla ins p1 p2 data r, event_ok (Apdu cla ins p1 p2 data r) -> st_range E st ->
    went st (Apdu cla ins p1 p2 data r) \/ failed st (Apdu cla ins p1 p2 data r).
  Proof.
    intros st cla ins p1 p2 data r Ho Hs. pose proof Ho as (_ & _ & _ & _ & Hb & Hlen & _ & _). set (e := Apdu cla ins p1 p2 data r).
    destruct (st_busy st) eqn:B.
    { left. apply went_same. unfold e. cbn [fstep step]. unfold low_apdu_dispatcher, apdu_dispatcher, low_handler_epk, handler_epk, low_handler_da, handler_da,
        low_handler_attest, handler_attest, low_handler_sign, handler_sign. rewrite B. reflexivity. }
    assert (Same : simh st (fstep E F st e) (step E st e) -> went st e \/ failed st e).
    { intros H. eapply simh_done; [exact B|exact H|apply se_refl|left; reflexivity|reflexivity]. }
    destruct (cla =? 0xE0) eqn:C; [|apply Same; unfold e; cbn [fstep step]; unfold low_apdu_dispatcher, apdu_dispatcher; rewrite C; apply simh_refl].
    destruct (N.eq_dec ins 0x10) as [->|N10].
    { apply Same. unfold e. cbn [fstep step]. unfold low_apdu_dispatcher, apdu_dispatcher. rewrite C. cbn [negb].
      destruct (_ || _); [apply simh_refl|]. apply handler_epk_sim. }
    destruct (N.eq_dec ins 0x11) as [->|N11].
    { destruct ((p1 =? 0) || (2 <? p1) || (p2 =? 0) || (2 <? p2)) eqn:Pq.
      { apply Same. unfold e. cbn [fstep step]. unfold low_apdu_dispatcher, apdu_dispatcher. rewrite C, Pq. apply simh_refl. }
      destruct (handler_da_sim st data (p1 =? 2) (p2 =? 2) Hb) as [H|(Hf & _ & H1 & H2)].
      - apply Same. unfold e. cbn [fstep step]. unfold low_apdu_dispatcher, apdu_dispatcher. rewrite C, Pq. exact H.
      - right. apply (failed_here st e (Apdu cla 0x11 p1 p2 (255 :: tl data) r) SW_ADDRESS_GENERATION_FAILED SW_ADDRESS_GENERATION_FAILED (set_command st CMD_DA)); [exact Hf|apply st_address| | | |discriminate| |].
        + unfold e. cbn [fstep step]. unfold low_apdu_dispatcher. rewrite C, Pq. exact H1.
        + assert (Hd : data <> []). { intros ->. revert H1. unfold low_handler_da. rewrite B. cbn. discriminate. }
          cbn in Ho |- *. destruct data as [|x data]; [contradiction|]. cbn [tl length] in *. destruct Ho as (O1 & O2 & O3 & O4 & O5 & O6 & O7 & O8).
          repeat split; try assumption. cbn in O5 |- *. apply andb_true_iff in O5 as [_ O5]. exact O5.
        + cbn [step]. unfold apdu_dispatcher. rewrite C, Pq. cbn [negb]. exact H2.
        + repeat split.
        + reflexivity. }
    destruct (N.eq_dec ins 0x20) as [->|N20].
    { apply Same. unfold e. cbn [fstep step]. unfold low_apdu_dispatcher, apdu_dispatcher. rewrite C. cbn [negb].
      destruct (_ || _); [apply simh_refl|]. apply handler_attest_sim; assumption. }
    destruct (N.eq_dec ins 0x21) as [->|N21].
    { destruct ((p1 =? 0) || (p2 =? 0)) eqn:Pq.
      { apply Same. unfold e. cbn [fstep step]. unfold low_apdu_dispatcher, apdu_dispatcher. rewrite C, Pq. apply simh_refl. }
      destruct (handler_sign_sim st data p1 p2 r Hb Hs) as (l & H1 & H2 & H3). destruct r as [ns ids]. cbn [r_nonces r_ids] in *.
      eapply (simh_done st e (Apdu cla 0x21 p1 p2 data (mk_rnd l ids))); [exact B| |apply se_apdu; exact H1| |].
      - unfold e. cbn [fstep step]. unfold low_apdu_dispatcher, apdu_dispatcher. rewrite C, Pq. exact H3.
      - destruct H2 as [->|H2]; [left; reflexivity|right; exact H2].
      - reflexivity. }
    apply Same. unfold e. cbn [fstep step]. unfold low_apdu_dispatcher, apdu_dispatcher. rewrite C. cbn [negb].
    destruct ins as [|p]; [apply simh_refl|]. do 6 (try destruct p as [p|p|]); try apply simh_refl; lia.
  Qed.

  Lemma page_cases : forall st x, shape st -> st_range E st -> has_pages (st_ui st) = true ->
    low_display_dynamic E F st x = display_dynamic E st x \/
    (call_failed F /\ exists s, fault_status s /\ low_display_dynamic E F st x = (ui_menu_main (set_command st CMD_NONE), [resp s]) /\
       step E st UiReject = (ui_menu_main (set_command st CMD_NONE), [OResp [] SW_DENY])).
  Proof.
    intros st x Hsh Hs Hp. unfold low_display_dynamic, display_dynamic. cbv zeta. destruct (snd x) as [i|]; [|left; reflexivity].
    unfold set_dyn. cbn [st_ui st_ctx]. destruct (st_ui st) eqn:U; try discriminate Hp; [|left; reflexivity].
    destruct (st_ctx st) as [|c|c|c|g] eqn:X; try (left; reflexivity). unfold st_range in Hs. rewrite X in Hs. destruct Hs as (_ & Hn & Ht).
    cbn [low_page_of page_of]. destruct (op_union_of (sg_op g)) as [|t|] eqn:Un; try (left; reflexivity).
    destruct (tx_output t) as [o|] eqn:To; [|left; reflexivity]. cbn [info_range] in Ht.
    destruct (output_page_sim E F HF o (am_table (op_amounts (sg_op g))) (op_network (sg_op g)) i HE Hn Ht) as [->|(Hf & s & -> & Hst)]; [left; reflexivity|].
    right. split; [assumption|]. exists s. split; [assumption|]. split.
    - destruct Hst as [->|[->|[->| ->]]]; reflexivity.
    - cbn [step]. unfold ui_action. rewrite U, X. unfold ui_action_stx_output. cbv zeta. rewrite Un, To. reflexivity.
  Qed.

  Lemma fstep_cases : forall st e, event_ok e -> shape st -> st_range E st -> went st e \/ failed st e.
  Proof.
    intros st e Ho Hsh Hs. destruct e as [cla ins p1 p2 data r| | | | | | | |]; try (left; apply went_same; reflexivity).
    - apply apdu_cases; assumption.
    - destruct (st_ctx st) as [|c|c|c|g] eqn:X.
      + left. apply went_same. cbn [fstep step]. unfold low_ui_action, ui_action. rewrite X. destruct (st_ui st); reflexivity.
      + left. apply went_same. cbn [fstep step]. unfold low_ui_action, ui_action. rewrite X. destruct (st_ui st); try reflexivity.
        unfold st_range in Hs. rewrite X in Hs. destruct Hs as [H1 H2]. unfold low_ui_action_epk, ui_action_epk. rewrite epk_response_same by assumption. reflexivity.
      + left. apply went_same. cbn [fstep step]. unfold low_ui_action, ui_action. rewrite X. destruct (st_ui st); try reflexivity.
        unfold st_range in Hs. rewrite X in Hs. unfold low_ui_action_da, ui_action_da. rewrite da_response_same by assumption. reflexivity.
      + left. apply went_same. cbn [fstep step]. unfold low_ui_action, ui_action. rewrite X. destruct (st_ui st); reflexivity.
      + destruct (st_ui st) eqn:U; try (left; apply went_same; cbn [fstep step]; unfold low_ui_action, ui_action; rewrite ?U, ?X; reflexivity).
        destruct (send_response_sim E F (sg_op g)) as [H|(Hf & s & H & Hst)].
        * left. apply went_same. cbn [fstep step]. unfold low_ui_action, ui_action. rewrite U, X. unfold low_ui_action_stx_tx, ui_action_stx_tx. rewrite H. reflexivity.
        * right. apply (failed_here st UiApprove UiReject s SW_DENY (ui_menu_main (set_command st CMD_NONE))); [exact Hf|exact Hst| |exact I| |discriminate| |].
          -- cbn [fstep]. unfold low_ui_action. rewrite U, X. unfold low_ui_action_stx_tx. rewrite H. reflexivity.
          -- cbn [step]. unfold ui_action. rewrite U, X. reflexivity.
          -- repeat split.
          -- split; reflexivity.
    - left. apply went_same. cbn [fstep step]. unfold low_ui_action, ui_action. destruct (st_ui st); try reflexivity; destruct (st_ctx st); reflexivity.
    - destruct (has_pages (st_ui st)) eqn:P; [|left; apply went_same; cbn [fstep step]; rewrite P; reflexivity].
      destruct (page_cases st (ui_dynamic_step_left (st_dyn st)) Hsh Hs P) as [H|(Hf & s & Hst & H1 & H2)].
      + left. apply went_same. cbn [fstep step]. rewrite P. exact H.
      + right. apply (failed_here st UiUpper UiReject s SW_DENY (ui_menu_main (set_command st CMD_NONE))); [exact Hf|exact Hst| |exact I|exact H2|discriminate| |].
        * cbn [fstep]. rewrite P. exact H1.
        * repeat split.
        * split; reflexivity.
    - destruct (has_pages (st_ui st)) eqn:P; [|left; apply went_same; cbn [fstep step]; rewrite P; reflexivity].
      destruct (page_cases st (ui_dynamic_step_right (st_dyn st)) Hsh Hs P) as [H|(Hf & s & Hst & H1 & H2)].
      + left. apply went_same. cbn [fstep step]. rewrite P. exact H.
      + right. apply (failed_here st UiLower UiReject s SW_DENY (ui_menu_main (set_command st CMD_NONE))); [exact Hf|exact Hst| |exact I|exact H2|discriminate| |].
        * cbn [fstep]. rewrite P. exact H1.
        * repeat split.
        * split; reflexivity.
  Qed.
End LowProofs.
