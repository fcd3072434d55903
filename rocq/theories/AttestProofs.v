(** Frames of an attested box; the box of a session whatever follows. *)
From Verif Require Import Lib Gve SpecVlq CodecProofs Env Bip32 ErgoTree TxTable TxBox InputFrame UiFlow P2pkOp App
  SpecTree SpecTrace SpecTx SpecApdu BoxProofs Moves SignInv SignInput TraceSign TraceAttest.

#[local] Arguments N.eqb : simpl never.
#[local] Arguments N.ltb : simpl never.
#[local] Arguments N.leb : simpl never.
#[local] Arguments N.sub : simpl never.
#[local] Arguments blen : simpl never.
#[local] Arguments num : simpl never.
#[local] Arguments slice : simpl never.

Lemma sb_wf_count : forall b, sb_wf b -> blen (sb_tokens b) <= sb_ntokens b /\ sb_ntokens b <= 20.
Proof.
  intros b [W _ _ _ _]. pose proof (gw_toks _ W) as A. pose proof (gw_ntok _ W) as B. cbn in A, B. rewrite blen_map in A. auto.
Qed.
Lemma frames_count_ok : forall b, sb_wf b -> get_frames_count (blen (sb_tokens b)) = frame_total b.
Proof.
  intros b W. destruct (sb_wf_count b W) as [A B]. unfold get_frames_count, frame_total, u8, two8, FRAME_MAX_TOKENS_COUNT.
  replace (4 - 1) with 3 by reflexivity.
  assert (K : (blen (sb_tokens b) + 3) / 4 < 256) by (apply N.div_lt_upper_bound; lia).
  rewrite N.mod_small by exact K. destruct (N.eqb_spec ((blen (sb_tokens b) + 3) / 4) 0); lia.
Qed.
Lemma frame_total_bound : forall b i, sb_wf b -> i < frame_total b -> i < 5 /\ 4 * i <= blen (sb_tokens b).
Proof.
  intros b i W H. destruct (sb_wf_count b W) as [A B]. unfold frame_total in H.
  assert (K : (blen (sb_tokens b) + 3) / 4 < 6) by (apply N.div_lt_upper_bound; lia). lia.
Qed.
Lemma frame_ok : forall E key b i, sb_wf b -> i < frame_total b ->
  attested_frame (e_hmac E) key (box_id E b) (sb_value b) (sb_tokens b) i = tagged E key (frame_of E b i).
Proof.
  intros E key b i W H. destruct (frame_total_bound b i W H) as [B1 B2]. destruct (sb_wf_count b W) as [A B].
  unfold attested_frame, tagged. assert (K : frame_data (box_id E b) (sb_value b) (sb_tokens b) i = frame_of E b i); [|rewrite K; reflexivity].
  unfold frame_data, frame_of, FRAME_MAX_TOKENS_COUNT. rewrite frames_count_ok by exact W.
  replace (N.to_nat (i * 4)) with (4 * N.to_nat i)%nat by lia.
  set (n := blen (sb_tokens b)) in *.
  assert (U : u8 (n + two8 - u8 (i * 4)) = n - 4 * i).
  { unfold u8, two8. rewrite (N.mod_small (i * 4)) by lia. replace (n + 256 - i * 4) with (n - 4 * i + 1 * 256) by lia.
    rewrite N.mod_add by lia. apply N.mod_small. lia. }
  rewrite U.
  assert (Lk : blen (firstn 4 (skipn (4 * N.to_nat i) (sb_tokens b))) = N.min (n - 4 * i) 4).
  { unfold blen. rewrite firstn_length, skipn_length. unfold n, blen in *. lia. }
  rewrite Lk. do 5 f_equal. unfold token_pair.
  assert (F : firstn (N.to_nat (N.min (n - 4 * i) 4)) (skipn (4 * N.to_nat i) (sb_tokens b)) = firstn 4 (skipn (4 * N.to_nat i) (sb_tokens b))).
  { destruct (N.le_gt_cases 4 (n - 4 * i)) as [K|K].
    - replace (N.to_nat (N.min (n - 4 * i) 4)) with 4%nat by lia. reflexivity.
    - rewrite (firstn_all2 (n := 4)); [apply firstn_all2|]; rewrite skipn_length; unfold n, blen in *; lia. }
  rewrite F. reflexivity.
Qed.

(** ** Reading frames back *)

Lemma entries_tok : forall l, Forall tok_ok l ->
  map (fun e => (slice 0 32 e, num 32 8 e)) (entries 40 (concat (map (fun t => fst t ++ be_bytes 8 (snd t)) l))) = l.
Proof.
  intros l H. rewrite entries_concat.
  - rewrite map_map. induction H as [|[id v] l [H1 H2] H IH]; [reflexivity|]. cbn [map fst snd] in *. f_equal; [|exact IH].
    rewrite slice_head by assumption. rewrite num_skip by lia. rewrite H1. cbn [Nat.sub].
    rewrite num_all by apply be_bytes_length. rewrite be_value_be_bytes; [reflexivity|exact H2].
  - lia.
  - rewrite Forall_map. eapply Forall_impl; [|exact H]. intros [id v] [K _]. cbn [fst snd] in *. rewrite app_length, be_bytes_length. lia.
Qed.
Lemma firstn_skipn_forall : forall A (P : A -> Prop) n m l, Forall P l -> Forall P (firstn n (skipn m l)).
Proof.
  intros A P n m l H. rewrite Forall_forall in *. intros x Hx. apply H. rewrite <- (firstn_skipn m l). apply in_or_app. right.
  rewrite <- (firstn_skipn n (skipn m l)). apply in_or_app. auto.
Qed.
Lemma frame_fields : forall E key b i, env_ok E -> sb_wf b -> sb_value b < two64 -> i < frame_total b ->
  let f := tagged E key (frame_of E b i) in
  slice 0 32 f = box_id E b /\ num 32 1 f = frame_total b /\ num 33 1 f = i /\ num 34 8 f = sb_value b /\
  frame_tokens f = firstn 4 (skipn (4 * N.to_nat i) (sb_tokens b)) /\
  frame_body f = frame_of E b i /\ frame_tag f = firstn 16 (e_hmac E key (frame_of E b i)) /\
  length f = (59 + 40 * length (firstn 4 (skipn (4 * N.to_nat i) (sb_tokens b))))%nat.
Proof.
  intros E key b i Henv W Hv H f. destruct (frame_total_bound b i W H) as [B1 B2]. destruct (sb_wf_count b W) as [A B].
  set (toks := firstn 4 (skipn (4 * N.to_nat i) (sb_tokens b))) in *.
  set (pairs := concat (map (fun t : bytes * N => fst t ++ be_bytes 8 (snd t)) toks)).
  set (tag := firstn 16 (e_hmac E key (frame_of E b i))).
  assert (Lid : length (box_id E b) = 32%nat) by apply (ok_blake_len E Henv).
  assert (Lt : length tag = 16%nat) by (unfold tag; rewrite firstn_length, (ok_hmac_len E Henv); reflexivity).
  assert (Ft : Forall tok_ok toks) by (apply firstn_skipn_forall, W).
  assert (Lp : length pairs = (40 * length toks)%nat).
  { unfold pairs. clear - Ft. induction Ft as [|[id v] l [K _] _ IH]; [reflexivity|]. cbn [map concat fst snd] in *.
    rewrite !app_length, be_bytes_length, IH. cbn [length]. lia. }
  assert (Ltk : (length toks <= 4)%nat) by apply firstn_le_length.
  assert (Ef : f = box_id E b ++ [frame_total b] ++ [i] ++ be_bytes 8 (sb_value b) ++ [blen toks] ++ pairs ++ tag).
  { unfold f, tagged, frame_of. fold toks pairs. fold tag. rewrite <- !app_assoc. reflexivity. }
  assert (Hn : num 42 1 f = blen toks).
  { rewrite Ef. rewrite num_skip by lia. rewrite Lid. change ([frame_total b] ++ [i] ++ ?x) with ([frame_total b; i] ++ x). rewrite num_skip by (cbn; lia).
    rewrite num_skip by (rewrite be_bytes_length; cbn; lia). rewrite be_bytes_length. cbn [length Nat.sub]. rewrite num_head by reflexivity. unfold be_value. cbn. lia. }
  assert (Hnt : frame_ntokens f = length toks).
  { unfold frame_ntokens. rewrite Hn. unfold blen. rewrite N.mod_small by lia. lia. }
  assert (Hs : forall n, slice 43 n f = slice 0 n (pairs ++ tag)).
  { intros n. rewrite Ef. rewrite slice_skip by lia. rewrite Lid. change ([frame_total b] ++ [i] ++ ?x) with ([frame_total b; i] ++ x). rewrite slice_skip by (cbn; lia).
    rewrite slice_skip by (rewrite be_bytes_length; cbn; lia). rewrite be_bytes_length. cbn [length Nat.sub].
    rewrite slice_skip by (cbn; lia). reflexivity. }
  assert (Lb : length (frame_of E b i) = (43 + 40 * length toks)%nat).
  { unfold frame_of. fold toks pairs. rewrite !app_length, Lid, be_bytes_length, Lp. cbn [length]. lia. }
  split; [rewrite Ef; apply slice_head; exact Lid|].
  split; [rewrite Ef; rewrite num_skip by lia; rewrite Lid; cbn [Nat.sub]; rewrite num_head by reflexivity; unfold be_value; cbn; lia|].
  split; [rewrite Ef; rewrite num_skip by lia; rewrite Lid; cbn [Nat.sub]; rewrite num_skip by (cbn; lia); cbn [length Nat.sub]; rewrite num_head by reflexivity; unfold be_value; cbn; lia|].
  split.
  { rewrite Ef. rewrite num_skip by lia. rewrite Lid. cbn [Nat.sub]. change ([frame_total b] ++ [i] ++ ?x) with ([frame_total b; i] ++ x).
    rewrite num_skip by (cbn; lia). cbn [length Nat.sub]. rewrite num_head by apply be_bytes_length. apply be_value_be_bytes. exact Hv. }
  split.
  { unfold frame_tokens. rewrite Hnt, Hs, <- Lp. rewrite slice_head by reflexivity. apply entries_tok. exact Ft. }
  split; [unfold frame_body; rewrite Hnt; unfold f, tagged; apply slice_head; exact Lb|].
  split; [unfold frame_tag; rewrite Hnt; unfold f, tagged; rewrite slice_skip by lia; rewrite Lb, Nat.sub_diag; apply slice_all; exact Lt|].
  unfold f, tagged. fold tag. rewrite app_length, Lb, Lt. lia.
Qed.

Lemma skipn_S : forall A n m (l : list A), skipn n (skipn m l) = skipn (m + n) l.
Proof. intros A n m. induction m as [|m IH]; intros l; [reflexivity|]. destruct l as [|x l]; [rewrite !skipn_nil; reflexivity|]. cbn. apply IH. Qed.
Lemma groups_of_4 : forall A n (l : list A) k, (length l <= 4 * (k + n))%nat -> 
  concat (map (fun i => firstn 4 (skipn (4 * i) l)) (seq k n)) = skipn (4 * k) l.
Proof.
  intros A n. induction n as [|n IH]; intros l k H.
  - cbn. rewrite skipn_all2 by lia. reflexivity.
  - cbn [seq map concat]. rewrite IH by lia. rewrite <- (firstn_skipn 4 (skipn (4 * k) l)) at 2. f_equal.
    rewrite skipn_S. f_equal. lia.
Qed.
Lemma frames_lossless : forall E key b, env_ok E -> sb_wf b -> sb_value b < two64 ->
  concat (map (fun i => frame_tokens (tagged E key (frame_of E b (N.of_nat i)))) (seq 0 (N.to_nat (frame_total b)))) = sb_tokens b.
Proof.
  intros E key b Henv W Hv. destruct (sb_wf_count b W) as [A B].
  rewrite (map_ext_in _ (fun i => firstn 4 (skipn (4 * i) (sb_tokens b)))).
  - rewrite (groups_of_4 _ _ _ 0).
    + reflexivity.
    + unfold frame_total. change (0 + ?x)%nat with x.
      assert (K : (blen (sb_tokens b) + 3) / 4 * 4 + 3 >= blen (sb_tokens b) + 3) by (pose proof (N.div_mod (blen (sb_tokens b) + 3) 4); pose proof (N.mod_lt (blen (sb_tokens b) + 3) 4); lia).
      unfold blen in *. lia.
  - intros i Hi. apply in_seq in Hi. destruct (frame_fields E key b (N.of_nat i) Henv W Hv) as (_ & _ & _ & _ & K & _); [lia|].
    rewrite K, Nat2N.id. reflexivity.
Qed.

(** ** From the history *)

Lemma sb_wf_value : forall b, sb_wf b -> sb_value b < two64.
Proof. intros b W. apply (gw_value _ (sw_g _ W)). Qed.

Lemma attest_step : forall E st sub p2 data r, step E st (Apdu CLA INS_ATTEST sub p2 data r) =
  if (sub =? 0) || (p2 =? 0) then (st, [resp SW_WRONG_P1P2]) else handler_attest E st data sub p2 r.
Proof. reflexivity. Qed.

(** A frame is answered: which one, and of which box. *)
Lemma frame_answer : forall E key tr st p2 data r frame,
  env_ok E -> history E key (tr ++ [(Apdu CLA INS_ATTEST 5 p2 data r, [OResp frame SW_OK])]) st ->
  exists start body i, session_of INS_ATTEST tr = Some (start, body) /\ attest_started start p2 /\ attest_allowed start p2 body /\
    data = [i] /\ i < frame_total (streamed_box start body) /\ sb_complete (streamed_box start body) = true /\
    sb_wf (streamed_box start body) /\ frame = tagged E key (frame_of E (streamed_box start body) i).
Proof.
  intros E key tr st p2 data r rp Henv H. apply history_last in H as (st0 & Hh & Sh & Hev & Hst & _ & _).
  pose proof (attest_inv_holds E key tr st0 Henv Hh) as [Hk Inv].
  rewrite attest_step in Hst. destruct ((5 =? 0) || (p2 =? 0)); [discriminate|]. unfold handler_attest in Hst.
  destruct (st_busy st0); [discriminate|]. cbv beta iota in Hst. destruct (st_cmd st0) eqn:Ec; try discriminate.
  destruct (st_ctx st0) as [|x|x|c|g] eqn:Ex; try discriminate.
  destruct (p2 =? at_session c) eqn:Es; [|discriminate]. apply N.eqb_eq in Es. subst p2.
  unfold attest_get_frame in Hst. destruct (at_state c) eqn:Ea; try discriminate.
  destruct data as [|i l]; [discriminate|]. rewrite read_u8_cons in Hst. cbn [rd bind] in Hst. destruct l; [|discriminate]. cbn [finished] in Hst.
  destruct (get_frames_count (blen (at_tokens c)) <=? i) eqn:Ei; [discriminate|]. injection Hst as _ <-.
  destruct Inv as (start & body & I1 & I2 & I3 & I4). unfold attest_phase in I4. rewrite Ea in I4.
  destruct I4 as (A1 & W & Cm & X1 & X2 & X3). rewrite X2 in Ei. rewrite frames_count_ok in Ei by exact W. apply N.leb_gt in Ei.
  exists start, body, i. do 4 (split; [assumption || reflexivity|]). do 3 (split; [assumption|]).
  rewrite Hk, X1, X2, X3. apply frame_ok; assumption.
Qed.
(** The command that completes the box answers the number of frames. *)
Lemma complete_answer : forall E key tr st sub p2 data r n, In sub [2; 3; 4] ->
  env_ok E -> history E key (tr ++ [(Apdu CLA INS_ATTEST sub p2 data r, [OResp [n] SW_OK])]) st ->
  exists start body c, session_of INS_ATTEST (tr ++ [(Apdu CLA INS_ATTEST sub p2 data r, [OResp [n] SW_OK])]) = Some (start, body) /\
    attest_started start p2 /\ attest_allowed start p2 body /\
    sb_complete (streamed_box start body) = true /\ sb_wf (streamed_box start body) /\ n = frame_total (streamed_box start body) /\
    st_ctx st = X_ATTEST c /\ at_state c = AT_FINISHED /\ at_session c = p2 /\ st_busy st = false /\ st_cmd st = CMD_ATTEST /\
    at_id c = box_id E (streamed_box start body) /\ at_tokens c = sb_tokens (streamed_box start body) /\
    bx_value (at_box c) = sb_value (streamed_box start body) /\ st_key st = key.
Proof.
  intros E key tr st sub p2 data r n Hs Henv H. pose proof (attest_inv_holds E key _ st Henv H) as [Hk Inv].
  pose proof (history_shape _ _ _ _ H) as Sh'.
  apply history_last in H as (st0 & Hh & Sh & Hev & Hst & _ & _).
  assert (Hc : exists c (call : unit) (x : bs (list (bytes * N))) id (y : bs (list (bytes * N))), st_cmd st0 = CMD_ATTEST /\ st_ctx st0 = X_ATTEST c /\ p2 = at_session c /\
     st = set_ctx st0 (X_ATTEST (mk_attest AT_FINISHED (at_session c) id (at_index c) (bs_box y) (bs_hash y) (bs_cb x) (at_token c))) /\
     n = get_frames_count (blen (bs_cb x)) /\ st_busy st0 = false /\ call = tt).
  { rewrite attest_step in Hst.
    destruct ((sub =? 0) || (p2 =? 0)); [discriminate|]. unfold handler_attest in Hst.
    destruct (st_busy st0); [discriminate|].
    assert (K : exists call, (match st_cmd st0 with
      | CMD_ATTEST => match st_ctx st0 with
          | X_ATTEST c => if p2 =? at_session c then attest_box_call E st0 c call else handler_err st0 SW_BAD_SESSION_ID
          | _ => handler_err st0 SW_UB end
      | _ => handler_err st0 SW_BAD_STATE end) = (st, [OResp [n] SW_OK])).
    { destruct Hs as [<-|[<-|[<-|[]]]]; eexists; exact Hst. }
    clear Hst. destruct K as [call Hst]. destruct (st_cmd st0) eqn:Ec; try discriminate. destruct (st_ctx st0) as [|x|x|c|g] eqn:Ex; try discriminate.
    destruct (p2 =? at_session c) eqn:Es; [|discriminate]. apply N.eqb_eq in Es. subst p2.
    unfold attest_box_call in Hst. destruct (at_state c); try discriminate. destruct (call (attest_bs c)) as [rs x].
    destruct rs; try discriminate. unfold check_box_finished in Hst.
    destruct (bx_state (at_box (attest_put c x))); try discriminate.
    destruct (box_id_hash (e_blake E) (attest_bs (attest_put c x)) (at_id (attest_put c x)) (at_index (attest_put c x))) as [[rr y] id].
    destruct rr; try discriminate. injection Hst as <- <-. exists c, tt, x, id, y. do 6 (split; [reflexivity || assumption|]). reflexivity. }
  destruct Hc as (c & _ & x & id & y & C1 & C2 & -> & -> & -> & C3 & _).
  cbn [st_ctx set_ctx st_busy st_cmd] in *. destruct Inv as (start & body & I1 & I2 & I3 & I4). unfold attest_phase in I4.
  cbn [at_state at_session at_id at_tokens at_box] in *. destruct I4 as (A1 & W & Cm & X1 & X2 & X3).
  eexists start, body, _. split; [exact I1|]. do 4 (split; [assumption|]). split; [rewrite <- frames_count_ok by exact W; rewrite <- X2; reflexivity|].
  split; [reflexivity|]. do 2 (split; [reflexivity|]). do 2 (split; [assumption|]). do 3 (split; [assumption|]). exact Hk.
Qed.
(** From then on every frame can be fetched. *)
Lemma frame_available : forall E key tr st sub p2 data r n i r', In sub [2; 3; 4] ->
  env_ok E -> history E key (tr ++ [(Apdu CLA INS_ATTEST sub p2 data r, [OResp [n] SW_OK])]) st -> i < n ->
  exists start body, session_of INS_ATTEST (tr ++ [(Apdu CLA INS_ATTEST sub p2 data r, [OResp [n] SW_OK])]) = Some (start, body) /\
    step E st (Apdu CLA INS_ATTEST 5 p2 [i] r') = (st, [OResp (tagged E key (frame_of E (streamed_box start body) i)) SW_OK]).
Proof.
  intros E key tr st sub p2 data r n i r' Hs Henv H Hi.
  destruct (complete_answer _ _ _ _ _ _ _ _ _ Hs Henv H) as (start & body & c & I1 & I2 & I3 & I4 & W & -> & X1 & X2 & X3 & X4 & X5 & X6 & X7 & X8 & X9).
  exists start, body. split; [exact I1|]. destruct I2 as (q2 & d0 & r0 & o0 & _ & _ & _ & Hz & _). apply N.eqb_neq in Hz.
  rewrite attest_step.
  rewrite Hz. change (5 =? 0) with false. cbn [orb]. unfold handler_attest. rewrite X4, X5, X1, X3, N.eqb_refl.
  unfold attest_get_frame. rewrite X2, X6, X7, X8, X9. rewrite read_u8_cons. cbn [rd bind finished].
  rewrite frames_count_ok by exact W. apply N.leb_gt in Hi. rewrite Hi. apply N.leb_gt in Hi. rewrite frame_ok by assumption. reflexivity.
Qed.

(** The box of the last session is well-formed at any time. *)
Lemma session_box : forall E key tr st start body, env_ok E -> history E key tr st ->
  session_of INS_ATTEST tr = Some (start, body) -> sb_wf (streamed_box start body).
Proof.
  intros E key tr st start body Henv H. revert start body. induction H as [|tr st e outs st' H IH He Hst Hd]; intros start body Hs; [discriminate|].
  assert (H2 : history E key (tr ++ [(e, outs)]) st') by (econstructor; eauto).
  pose proof (attest_inv_holds E key _ st' Henv H2) as [_ Inv].
  assert (Wc : forall c, st_ctx st' = X_ATTEST c -> sb_wf (streamed_box start body)).
  { intros c Hc. rewrite Hc in Inv. destruct Inv as (start' & body' & I1 & _ & _ & I4). rewrite Hs in I1. injection I1 as <- <-.
    unfold attest_phase in I4. destruct (at_state c); [destruct I4 as [(W & _) _]|destruct I4 as (_ & W & _)|destruct I4 as (_ & W & _)]; exact W. }
  pose proof (history_shape _ _ _ _ H) as Sh. pose proof (step_move _ _ _ _ _ Sh Hst) as M.
  rewrite session_snoc in Hs.
  assert (Q : quiet INS_ATTEST (e, outs) \/ (continuation INS_ATTEST (e, outs) = None /\ is_start INS_ATTEST (e, outs) = false) \/ exists c, st_ctx st' = X_ATTEST c).
  { inversion M; subst; try (right; right; eexists; reflexivity); try (left; apply not_accepted_quiet; reflexivity);
      try (left; apply other_quiet; discriminate); try (right; left; split; reflexivity).
    - left. eapply refused_quiet; eauto.
    - left. apply not_accepted_quiet. destruct s; try reflexivity. match goal with K : handler_error _ = true \/ _ |- _ => destruct K as [K|[K _]]; discriminate K end.
    - right; left; destruct b; split; reflexivity.
    - right; left; destruct b; split; reflexivity.
    - right; right. eauto.
    - destruct b; [right; right; eexists; reflexivity|right; left; split; reflexivity].
    - right; left. destruct H3 as [-> | ->]; split; reflexivity.
    - right; left. destruct H1 as [[-> _]|[-> _]]; split; reflexivity. }
  assert (Q' : (continuation INS_ATTEST (e, outs) = None /\ is_start INS_ATTEST (e, outs) = false) \/ exists c, st_ctx st' = X_ATTEST c).
  { destruct Q as [(A & B & _)|Q]; auto. }
  destruct Q' as [[C1 C2]|[c Hc]]; [|eapply Wc; eauto].
  rewrite C2 in Hs. destruct (session_of INS_ATTEST tr) as [[b0 l0]|] eqn:E0; [|discriminate]. injection Hs as <- <-.
  rewrite streamed_snoc. unfold sb_step. rewrite C1. eapply IH. reflexivity.
Qed.

(** ** The box read off the commands *)

Definition whole (n : nat) (data : bytes) : Prop := Forall (fun e => length e = n) (entries n data).
Lemma entries_whole_app : forall n a b, (0 < n)%nat -> whole n a -> entries n (a ++ b) = entries n a ++ entries n b.
Proof.
  intros n a b Hn W. rewrite <- (concat_entries n a Hn) at 1. unfold whole in W. induction W as [|e l He W IH]; [reflexivity|].
  cbn [concat app]. rewrite <- app_assoc, entries_app by assumption. rewrite IH. reflexivity.
Qed.
Lemma whole_app : forall n a b, (0 < n)%nat -> whole n a -> whole n b -> whole n (a ++ b).
Proof. intros n a b Hn A B. unfold whole. rewrite entries_whole_app by assumption. apply Forall_app. auto. Qed.
Lemma att_tokens_whole : forall b data r x, sb_wf b -> bytes_ok data = true ->
  box_add_tokens attest_box_cb (gs (g_att b) [] (sb_tokens b)) data None = (r, x) -> res_pass r = true -> whole 40 data.
Proof.
  intros b data r x [W W1 W2 W3 W4] Hb H Hr. destruct (g_tokens_ok _ _ _ _ _ _ _ _ W Hb H Hr) as (D & _ & _ & W' & Fe & _).
  cbn [tok_size] in Fe. unfold whole. eapply Forall_impl; [|exact Fe]. intros e [L _]. exact L.
Qed.

Lemma continuation_form : forall ins e outs sub d, continuation ins (e, outs) = Some (sub, d) ->
  exists p2 r, e = Apdu CLA ins sub p2 d r /\ accepted outs = true.
Proof.
  intros ins e outs sub d H. destruct e; try discriminate. unfold continuation in H.
  destruct ((cla =? 0xE0) && (ins0 =? ins) && negb (p1 =? 1) && accepted outs) eqn:K; [|discriminate]. injection H as <- <-.
  rewrite !andb_true_iff in K. destruct K as (((K1 & K2) & K3) & K4). apply N.eqb_eq in K1, K2. subst. eauto.
Qed.
Definition whole_tokens (o : obs) : Prop :=
  match continuation INS_ATTEST o with Some (3, data) => whole 40 data | _ => True end.
Lemma history_tokens_whole : forall E key tr st, env_ok E -> history E key tr st -> Forall whole_tokens tr.
Proof.
  intros E key tr st Henv H. induction H as [|tr st e outs st' H IH He Hst Hd]; [constructor|].
  apply Forall_app. split; [exact IH|]. constructor; [|constructor].
  unfold whole_tokens. destruct (continuation INS_ATTEST (e, outs)) as [[sub d]|] eqn:Ec; [|exact I].
  destruct (N.eqb_spec sub 3) as [->|N3].
  2:{ destruct sub as [|[[p|p|]|p|]]; try exact I. congruence. }
  pose proof (attest_inv_holds E key _ st Henv H) as [_ Inv].
  pose proof (history_shape _ _ _ _ H) as Sh. pose proof (step_move _ _ _ _ _ Sh Hst) as M.
  destruct (continuation_form _ _ _ _ _ Ec) as (p2 & r & -> & Ha).
  destruct He as (_ & _ & _ & _ & Hb & _).
  inversion M; subst; try discriminate; try (match goal with K : refused _ _ _ |- _ => destruct (refused_quiet INS_ATTEST _ _ _ K) as (_ & Q & _); congruence end).
  { destruct s; try discriminate. match goal with K : handler_error _ = true \/ _ |- _ => destruct K as [K|[K _]]; discriminate K end. }
  all: try (destruct b; discriminate).
  all: try match goal with Hx : st_ctx ?st = X_ATTEST ?c, Hs : at_state ?c = AT_APPROVED, Hc : attest_call 3 ?d = Some ?call |- _ =>
    rewrite Hx in Inv; destruct Inv as (start & body & I1 & I2 & I3 & I4); unfold attest_phase in I4; rewrite Hs in I4;
    destruct I4 as (I4 & W & X1 & X2 & X3); injection Hc as <- end.
  all: try rewrite X3 in *.
  1: destruct H12 as [K|[K _]]; eapply att_tokens_whole; eauto.
  1: eapply att_tokens_whole; eauto.
  all: match goal with K : _ \/ _ |- _ => first [destruct K as [[K _]|[K _]]; discriminate | destruct K as [K|K]; discriminate] end.
Qed.
Lemma tokens_of_pieces : forall start body, Forall whole_tokens body ->
  let b := streamed_box start body in
  sb_tree b = (if (length (pieces INS_ATTEST 2 body) =? 0)%nat then None else Some (concat (pieces INS_ATTEST 2 body))) /\
  whole 40 (concat (pieces INS_ATTEST 3 body)) /\
  sb_tokens b = map (fun e => (slice 0 32 e, num 32 8 e)) (entries 40 (concat (pieces INS_ATTEST 3 body))) /\
  sb_regs b = concat (pieces INS_ATTEST 4 body) /\
  sb_tx_id b = sb_tx_id (sb_start (start_data start)) /\ sb_index b = sb_index (sb_start (start_data start)) /\
  sb_value b = sb_value (sb_start (start_data start)) /\ sb_tree_len b = sb_tree_len (sb_start (start_data start)) /\
  sb_height b = sb_height (sb_start (start_data start)) /\ sb_ntokens b = sb_ntokens (sb_start (start_data start)) /\
  sb_regs_len b = sb_regs_len (sb_start (start_data start)).
Proof.
  intros start body. induction body as [|o body IH] using rev_ind; intros W b.
  - unfold b. cbn. unfold whole. cbn. do 10 (split; [reflexivity || constructor|]). reflexivity.
  - apply Forall_app in W as [W1 W2]. inversion W2 as [|? ? Wo _]; subst. specialize (IH W1). cbv zeta in IH.
    unfold b. rewrite streamed_snoc. unfold pieces in *. rewrite !flat_map_app. cbn [flat_map]. rewrite !app_nil_r. unfold sb_step, whole_tokens in *.
    set (b0 := streamed_box start body) in *. destruct IH as (I1 & I2 & I3 & I4 & I5).
    destruct (continuation INS_ATTEST o) as [[sub d]|].
    2:{ rewrite !app_nil_r. auto. }
    rewrite !concat_app.
    destruct (N.eqb_spec sub 2) as [-> | N2]; [|destruct (N.eqb_spec sub 3) as [-> | N3]; [|destruct (N.eqb_spec sub 4) as [-> | N4]]].
    + cbn [sb_cmd sb_tree sb_tokens sb_regs sb_tx_id sb_index sb_value sb_tree_len sb_height sb_ntokens sb_regs_len].
      change (2 =? 3) with false. change (2 =? 4) with false. cbn [concat]. rewrite !app_nil_r. rewrite app_length. cbn [length].
      rewrite I1. split; [|auto]. rewrite Nat.add_1_r. cbn [Nat.eqb]. destruct (flat_map _ body) as [|x l]; reflexivity.
    + cbn [sb_cmd sb_tree sb_tokens sb_regs sb_tx_id sb_index sb_value sb_tree_len sb_height sb_ntokens sb_regs_len].
      change (3 =? 2) with false. change (3 =? 4) with false. cbn [concat]. rewrite !app_nil_r. split; [exact I1|].
      split; [apply whole_app; [lia|assumption|assumption]|]. split; [|auto]. rewrite entries_whole_app by (lia || assumption). rewrite map_app, I3. reflexivity.
    + cbn [sb_cmd sb_tree sb_tokens sb_regs sb_tx_id sb_index sb_value sb_tree_len sb_height sb_ntokens sb_regs_len].
      change (4 =? 2) with false. change (4 =? 3) with false. cbn [concat]. rewrite !app_nil_r. do 3 (split; [assumption|]). split; [rewrite I4; reflexivity|exact I5].
    + rewrite !app_nil_r. cbn [concat]. rewrite ?app_nil_r.
      assert (Z : sb_cmd b0 sub d = b0). { unfold sb_cmd. destruct sub as [|[[p|[p|p|]|]|[[p|p|]|[p|p|]|]|]]; try reflexivity; congruence. }
      rewrite Z. auto.
Qed.
Lemma session_body_in : forall ins tr start body, session_of ins tr = Some (start, body) -> exists pre, tr = pre ++ start :: body.
Proof.
  intros ins tr. induction tr as [|o tr IH] using rev_ind; intros start body H; [discriminate|]. rewrite session_snoc in H.
  destruct (is_start ins o); [injection H as <- <-; exists tr; reflexivity|].
  destruct (session_of ins tr) as [[s l]|]; [|discriminate]. injection H as <- <-. destruct (IH _ _ eq_refl) as (pre & ->).
  exists pre. rewrite <- app_assoc. reflexivity.
Qed.
Lemma same_pieces_same_box : forall E1 key1 tr1 st1 start1 body1 E2 key2 tr2 st2 start2 body2,
  env_ok E1 -> env_ok E2 -> history E1 key1 tr1 st1 -> history E2 key2 tr2 st2 ->
  session_of INS_ATTEST tr1 = Some (start1, body1) -> session_of INS_ATTEST tr2 = Some (start2, body2) ->
  sb_complete (streamed_box start1 body1) = true -> sb_complete (streamed_box start2 body2) = true ->
  firstn 55 (start_data start1) = firstn 55 (start_data start2) ->
  (forall sub, In sub [2; 3; 4] -> concat (pieces INS_ATTEST sub body1) = concat (pieces INS_ATTEST sub body2)) ->
  streamed_box start1 body1 = streamed_box start2 body2.
Proof.
  intros E1 key1 tr1 st1 start1 body1 E2 key2 tr2 st2 start2 body2 V1 V2 H1 H2 S1 S2 C1 C2 Hd Hp.
  assert (W1 : Forall whole_tokens body1).
  { pose proof (history_tokens_whole _ _ _ _ V1 H1) as W. apply session_body_in in S1 as (pre & ->). apply Forall_app in W as [_ W]. inversion W; assumption. }
  assert (W2 : Forall whole_tokens body2).
  { pose proof (history_tokens_whole _ _ _ _ V2 H2) as W. apply session_body_in in S2 as (pre & ->). apply Forall_app in W as [_ W]. inversion W; assumption. }
  destruct (tokens_of_pieces start1 body1 W1) as (A1 & _ & A3 & A4 & A5 & A6 & A7 & A8 & A9 & A10 & A11).
  destruct (tokens_of_pieces start2 body2 W2) as (B1 & _ & B3 & B4 & B5 & B6 & B7 & B8 & B9 & B10 & B11).
  assert (Z : sb_start (start_data start1) = sb_start (start_data start2)).
  { assert (K : forall off n l, (off + n <= 55)%nat -> slice off n l = slice off n (firstn 55 l)).
    { intros off n l K. unfold slice. rewrite skipn_firstn_comm, firstn_firstn. f_equal. lia. }
    unfold sb_start, num. rewrite !(K _ _ (start_data start1)) by lia. rewrite !(K _ _ (start_data start2)) by lia. rewrite Hd. reflexivity. }
  rewrite Z in A5, A6, A7, A8, A9, A10, A11.
  rewrite (Hp 3) in A3 by (cbn; tauto). rewrite (Hp 4) in A4 by (cbn; tauto). rewrite (Hp 2) in A1 by (cbn; tauto).
  assert (T : sb_tree (streamed_box start1 body1) = sb_tree (streamed_box start2 body2)).
  { unfold sb_complete in C1, C2. rewrite A1, B1 in *. destruct (length (pieces INS_ATTEST 2 body1) =? 0)%nat; [discriminate|].
    destruct (length (pieces INS_ATTEST 2 body2) =? 0)%nat; [discriminate|]. reflexivity. }
  destruct (streamed_box start1 body1), (streamed_box start2 body2). cbn in *. congruence.
Qed.

(** ** As stated in PropAttest *)

Lemma attested_id : forall E key tr st p2 data r frame, env_ok E ->
  history E key (tr ++ [(Apdu CLA INS_ATTEST 5 p2 data r, [OResp frame SW_OK])]) st ->
  exists start body, session_of INS_ATTEST tr = Some (start, body) /\
    sb_complete (streamed_box start body) = true /\
    firstn 32 frame = e_blake E (box_bytes (streamed_box start body)).
Proof.
  intros E key tr st p2 data r frame Henv H. destruct (frame_answer _ _ _ _ _ _ _ _ Henv H) as (start & body & i & I1 & _ & _ & -> & Hi & Hc & W & ->).
  exists start, body. do 2 (split; [assumption|]).
  destruct (frame_fields E key _ i Henv W (sb_wf_value _ W) Hi) as (F & _). exact F.
Qed.
Lemma attested_frame_spec : forall E key tr st p2 data r frame, env_ok E ->
  history E key (tr ++ [(Apdu CLA INS_ATTEST 5 p2 data r, [OResp frame SW_OK])]) st ->
  exists start body i, session_of INS_ATTEST tr = Some (start, body) /\
    let b := streamed_box start body in
    data = [i] /\ i < frame_total b /\ frame = tagged E key (frame_of E b i) /\
    slice 0 32 frame = box_id E b /\ num 32 1 frame = frame_total b /\ num 33 1 frame = i /\ num 34 8 frame = sb_value b /\
    frame_tokens frame = firstn 4 (skipn (4 * N.to_nat i) (sb_tokens b)).
Proof.
  intros E key tr st p2 data r frame Henv H. destruct (frame_answer _ _ _ _ _ _ _ _ Henv H) as (start & body & i & I1 & _ & _ & -> & Hi & Hc & W & ->).
  exists start, body, i. split; [assumption|]. cbv zeta.
  destruct (frame_fields E key _ i Henv W (sb_wf_value _ W) Hi) as (F1 & F2 & F3 & F4 & F5 & _). auto 10.
Qed.
Lemma attested_count : forall E key tr st sub p2 data r n, env_ok E -> In sub [2; 3; 4] ->
  history E key (tr ++ [(Apdu CLA INS_ATTEST sub p2 data r, [OResp [n] SW_OK])]) st ->
  exists start body, session_of INS_ATTEST (tr ++ [(Apdu CLA INS_ATTEST sub p2 data r, [OResp [n] SW_OK])]) = Some (start, body) /\
    let b := streamed_box start body in
    sb_complete b = true /\ n = frame_total b /\
    (forall i r', i < n -> step E st (Apdu CLA INS_ATTEST 5 p2 [i] r') = (st, [OResp (tagged E key (frame_of E b i)) SW_OK])) /\
    concat (map (fun i => frame_tokens (tagged E key (frame_of E b (N.of_nat i)))) (seq 0 (N.to_nat n))) = sb_tokens b.
Proof.
  intros E key tr st sub p2 data r n Henv Hs H.
  destruct (complete_answer _ _ _ _ _ _ _ _ _ Hs Henv H) as (start & body & c & I1 & I2 & I3 & I4 & W & Hn & _).
  exists start, body. split; [exact I1|]. cbv zeta. do 2 (split; [assumption|]). split.
  - intros i r' Hi. destruct (frame_available _ _ _ _ _ _ _ _ _ i r' Hs Henv H Hi) as (s' & b' & J1 & J2). rewrite I1 in J1. injection J1 as <- <-. exact J2.
  - rewrite Hn. apply frames_lossless; [assumption|assumption|apply sb_wf_value; assumption].
Qed.
Lemma attest_sizes : forall E key tr st start body, env_ok E -> history E key tr st ->
  session_of INS_ATTEST tr = Some (start, body) ->
  let b := streamed_box start body in
  (forall t, sb_tree b = Some t -> blen t <= sb_tree_len b) /\
  blen (sb_tokens b) <= sb_ntokens b /\ blen (sb_regs b) <= sb_regs_len b /\
  (sb_tokens b <> [] -> exists t, sb_tree b = Some t /\ blen t = sb_tree_len b) /\
  (sb_regs b <> [] -> blen (sb_tokens b) = sb_ntokens b).
Proof.
  intros E key tr st start body Henv H Hs b. pose proof (session_box _ _ _ _ _ _ Henv H Hs) as [W _ _ _ _]. fold b in W.
  pose proof (gw_tree _ W eq_refl) as T. pose proof (gw_toks _ W) as K. pose proof (gw_toks0 _ W) as K0. pose proof (gw_regs _ W) as R. pose proof (gw_regs0 _ W) as R0.
  unfold g_att in *. cbn [g_tree g_tree_len g_done g_toks g_ntok g_regs g_regs_len] in *. rewrite blen_map in *.
  split; [intros t Ht; rewrite Ht in T; exact T|]. do 2 (split; [assumption|]). split.
  - intros Hn. unfold sb_done in K0. destruct (sb_tree b) as [t|].
    + exists t. split; [reflexivity|]. destruct (N.eqb_spec (blen t) (sb_tree_len b)) as [Q|Q]; [exact Q|]. specialize (K0 eq_refl).
      apply map_eq_nil in K0. contradiction.
    + specialize (K0 eq_refl). apply map_eq_nil in K0. contradiction.
  - intros Hn. destruct (N.eq_dec (blen (sb_tokens b)) (sb_ntokens b)) as [Q|Q]; [exact Q|]. exfalso. apply Hn, R0. right. exact Q.
Qed.
Lemma attest_once : forall E key tr st start body, env_ok E -> history E key tr st ->
  session_of INS_ATTEST tr = Some (start, body) ->
  NoDup (map fst (sb_tokens (streamed_box start body))) /\ (length (sb_tokens (streamed_box start body)) <= 20)%nat.
Proof.
  intros E key tr st start body Henv H Hs. pose proof (session_box _ _ _ _ _ _ Henv H Hs) as W. split; [apply W|].
  destruct (sb_wf_count _ W) as [A B]. unfold blen in A. lia.
Qed.
