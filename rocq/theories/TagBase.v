(** Runs in which cx_hmac_sha256 fails have counterparts in which it does not. *)
From Coq Require Import String.
From Verif Require Import Lib Base CodecProofs Env Bip32 Base58 Address ErgoTree Schnorr RwBuffer SpecBuffer RwBufferProofs TxTable TxBox TxInput TxFull
  Amounts OutputInfo Format InputFrame UiFlow P2pkOp App SpecApdu SpecTrace SpecTx SpecSign SpecScreen Moves
  Fault LowTx LowOp LowApp SpecFault LowTxProofs LowOpProofs LowProofs FaultProofs Buttons SpecButtons FaultButtons SpecFaultRun SpecTags.

#[local] Arguments N.eqb : simpl never.
#[local] Arguments N.ltb : simpl never.
#[local] Arguments N.leb : simpl never.
#[local] Arguments N.sub : simpl never.
#[local] Arguments blen : simpl never.
#[local] Arguments app : simpl never.

Lemma right_stack : forall F, stack_ok F -> stack_ok (tags_right F). Proof. intros F H n. apply H. Qed.
Lemma right_hmac : forall F, hmac_works (tags_right F). Proof. intros F k l. reflexivity. Qed.
Lemma right_failed : forall F, call_failed (tags_right F) <-> call_failed F.
Proof.
  intros F. split; intros [H|s h l g H|s h H|l H|H|H|i b H|H];
    solve [eapply cf_init; exact H|eapply cf_update; exact H|eapply cf_final; exact H|eapply cf_hash; exact H|eapply cf_derive; exact H|eapply cf_pub; exact H|eapply cf_round; exact H|eapply cf_finish; exact H].
Qed.
Lemma left_env : forall E F, env_ok E -> leaves_bytes F -> env_ok (hmac_env E F).
Proof.
  intros E F [H1 H2 H3 H4 H5 H6 H7] L. split; cbn [hmac_env e_blake e_hmac e_derive e_mulG e_id_keep]; try assumption;
    intros k l; destruct (f_hmac F k l) as [g|] eqn:G; auto; apply (L _ _ _ G).
Qed.
Lemma hmac_either : forall E F k l, hmac_failed F \/ e_hmac (hmac_env E F) k l = e_hmac E k l.
Proof. intros E F k l. cbn. destruct (f_hmac F k l) as [g|] eqn:G; [left; exists k, l, g; exact G|right; reflexivity]. Qed.

(** * The frame that is given *)
Lemma low_frame_env : forall E F key id value tokens i,
  low_attested_frame E F key id value tokens i = low_attested_frame (hmac_env E F) (tags_right F) key id value tokens i.
Proof. reflexivity. Qed.

(** * The frame that is taken *)
Lemma bytes_neq : forall t, length t = 16%nat -> bytes_ok t = true -> exists t', length t' = 16%nat /\ bytes_ok t' = true /\ bytes_eqb t t' = false.
Proof.
  intros [|x t] L B; [discriminate|]. exists ((if x =? 0 then 1 else 0) :: t). split; [exact L|]. split.
  - cbn in B |- *. apply andb_true_iff in B as [_ B]. rewrite B. destruct (x =? 0); reflexivity.
  - cbn [bytes_eqb]. destruct (x =? 0) eqn:Z; [apply N.eqb_eq in Z; subst x; reflexivity|]. rewrite Z. reflexivity.
Qed.

(** What is read once the tag is accepted. *)
Definition rest_of (data : bytes) : out input_frame :=
  bind (rd (read_bytes ERGO_ID_LEN data)) (fun '(id, l) =>
  bind (rd (read_u8 l)) (fun '(frames_count, l) =>
  bind (rd (read_u8 l)) (fun '(frame_index, l) =>
  bind (rd (read_u64 l)) (fun '(value, l) =>
  bind (rd (read_u8 l)) (fun '(tokens_count, l) =>
  let tokens_len := u8 (tokens_count * FRAME_PAIR_SIZE) in
  if blen l <? tokens_len + N.of_nat FRAME_SIGNATURE_LEN then Fail SW_NOT_ENOUGH_DATA
  else
    let tokens := firstn (N.to_nat tokens_len) l in
    let l := skipn (N.to_nat tokens_len + FRAME_SIGNATURE_LEN) l in
    if frame_index =? 0 then
      bind (rd (read_u32 l)) (fun '(ext, _) =>
      Ok (mk_frame id frames_count frame_index value tokens ext))
    else Ok (mk_frame id frames_count frame_index value tokens 0)))))).
Lemma parse_unfold : forall E key data, parse_input_frame E key data =
  (let n := input_frame_data_length data in
   if n =? 0 then Fail SW_NOT_ENOUGH_DATA
   else if negb (bytes_eqb (firstn 16 (e_hmac E key (firstn (N.to_nat n) data))) (firstn 16 (skipn (N.to_nat n) data)))
   then Fail SW_BAD_FRAME_SIGNATURE else rest_of data).
Proof. reflexivity. Qed.

Lemma cut_at : forall (n : nat) (l : bytes), (n <= length l)%nat -> exists a b, l = a ++ b /\ length a = n.
Proof. intros n l H. exists (firstn n l), (skipn n l). rewrite firstn_skipn. split; [reflexivity|]. apply firstn_length_le. exact H. Qed.
Lemma bytes_here : forall a b : bytes, read_bytes (length a) (a ++ b) = Some (a, b).
Proof.
  intros a b. unfold read_bytes. rewrite app_length. destruct (Nat.leb_spec (length a) (length a + length b)) as [_|L]; [|lia].
  rewrite <- (Nat.add_0_r (length a)), firstn_app_2, skipn_app, Nat.add_0_r, skipn_all, Nat.sub_diag. cbn [firstn skipn]. rewrite app_nil_r. reflexivity.
Qed.
Lemma be_here : forall n a b, length a = n -> read_be n (a ++ b) = Some (be_value a, b).
Proof. intros n a b <-. unfold read_be. rewrite bytes_here. reflexivity. Qed.

(** The five fields, for any bytes after them. *)
Lemma rest_cut : forall p, length p = 43%nat -> exists id fc fi va,
  forall x, rest_of (p ++ x) =
    (let tokens_len := u8 (nth 42 p 0 * 40) in
     if blen x <? tokens_len + 16 then Fail SW_NOT_ENOUGH_DATA
     else
       let tokens := firstn (N.to_nat tokens_len) x in
       if fi =? 0 then bind (rd (read_u32 (skipn (N.to_nat tokens_len + 16) x))) (fun '(ext, _) => Ok (mk_frame id fc fi va tokens ext))
       else Ok (mk_frame id fc fi va tokens 0)).
Proof.
  intros p L.
  destruct (cut_at 32 p ltac:(lia)) as (u1 & p1 & -> & L1). rewrite app_length, L1 in L.
  destruct (cut_at 1 p1 ltac:(lia)) as (u2 & p2 & -> & L2). rewrite app_length, L2 in L.
  destruct (cut_at 1 p2 ltac:(lia)) as (u3 & p3 & -> & L3). rewrite app_length, L3 in L.
  destruct (cut_at 8 p3 ltac:(lia)) as (u4 & p4 & -> & L4). rewrite app_length, L4 in L.
  destruct p4 as [|c [|c' p4]]; cbn [length] in L; [lia| |lia].
  exists u1, (be_value u2), (be_value u3), (be_value u4). intros x.
  assert (nth 42 (u1 ++ u2 ++ u3 ++ u4 ++ [c]) 0 = c) as ->.
  { rewrite !app_assoc. rewrite app_nth2; rewrite !app_length; [|lia]. replace (42 - _)%nat with 0%nat by lia. reflexivity. }
  rewrite <- !app_assoc. unfold rest_of, ERGO_ID_LEN. rewrite <- L1, bytes_here. cbn [rd bind].
  unfold read_u8, read_u64. rewrite be_here by exact L2. cbn [rd bind]. rewrite be_here by exact L3. cbn [rd bind].
  rewrite be_here by exact L4. cbn [rd bind]. rewrite be_here by reflexivity. cbn [rd bind].
  assert (be_value [c] = c) as -> by (unfold be_value; cbn; lia). reflexivity.
Qed.

Lemma length_cases : forall data, input_frame_data_length data <> 0 ->
  (59 <= length data)%nat /\ input_frame_data_length data = u8 (nth 42 data 0 * 40 + 43) /\ (N.to_nat (input_frame_data_length data) + 16 <= length data)%nat.
Proof.
  intros data H. unfold input_frame_data_length in *. change FRAME_MIN_SIZE with 59 in *. change (N.of_nat FRAME_SIGNATURE_LEN) with 16 in *.
  change FRAME_TOKEN_COUNT_POSITION with 42%nat in *. change FRAME_PAIR_SIZE with 40 in *. change FRAME_PREFIX_LEN with 43 in *.
  destruct (N.ltb_spec (blen data) 59) as [L|L]; [congruence|]. cbv zeta in *.
  destruct (N.ltb_spec (blen data) (u8 (nth 42 data 0 * 40 + 43) + 16)) as [K|K]; [congruence|]. unfold blen in *. split; [lia|]. split; [reflexivity|lia].
Qed.
Lemma tokens_length : forall c, 43 <= u8 (c * 40 + 43) -> u8 (c * 40) = u8 (c * 40 + 43) - 43.
Proof. intros c. unfold u8, two8. intros H. zify; Z.to_euclidean_division_equations; lia. Qed.
Lemma tokens_over : forall c, u8 (c * 40 + 43) < 43 -> 213 <= u8 (c * 40).
Proof. intros c. unfold u8, two8. intros H. zify; Z.to_euclidean_division_equations; lia. Qed.

Lemma over_refused : forall data, (length data <= 255)%nat -> input_frame_data_length data <> 0 -> input_frame_data_length data < 43 ->
  rest_of data = Fail SW_NOT_ENOUGH_DATA.
Proof.
  intros data M H L. destruct (length_cases _ H) as (L59 & Q & _). rewrite Q in L. apply tokens_over in L.
  destruct (cut_at 43 data ltac:(lia)) as (p & x & -> & Lp). destruct (rest_cut p Lp) as (id & fc & fi & va & R). rewrite R. cbv zeta.
  rewrite app_nth1 in L by lia. rewrite app_length in M.
  destruct (N.ltb_spec (blen x) (u8 (nth 42 p 0 * 40) + 16)) as [K|K]; [reflexivity|]. unfold blen in K. lia.
Qed.
Lemma retag : forall data n, n = input_frame_data_length data -> 43 <= n -> exists a t b, data = a ++ t ++ b /\ length a = N.to_nat n /\ length t = 16%nat /\
  forall t', length t' = 16%nat -> input_frame_data_length (a ++ t' ++ b) = n /\ rest_of (a ++ t' ++ b) = rest_of data /\
    firstn (N.to_nat n) (a ++ t' ++ b) = a /\ firstn 16 (skipn (N.to_nat n) (a ++ t' ++ b)) = t'.
Proof.
  intros data n -> H. destruct (length_cases data ltac:(lia)) as (L59 & Q & L16). set (n := input_frame_data_length data) in *. clearbody n.
  destruct (cut_at (N.to_nat n) data ltac:(lia)) as (a & x & -> & La). rewrite app_length in L16.
  destruct (cut_at 16 x ltac:(lia)) as (t & b & -> & Lt). exists a, t, b. split; [reflexivity|]. split; [exact La|]. split; [exact Lt|].
  intros t' Lt'. rewrite app_nth1 in Q by lia.
  assert (LL : length (a ++ t' ++ b) = length (a ++ t ++ b)) by (rewrite !app_length; lia).
  split; [|split; [|split]].
  - unfold input_frame_data_length. unfold blen. rewrite LL. change FRAME_MIN_SIZE with 59. change (N.of_nat FRAME_SIGNATURE_LEN) with 16.
    change FRAME_TOKEN_COUNT_POSITION with 42%nat. change FRAME_PAIR_SIZE with 40. change FRAME_PREFIX_LEN with 43. rewrite app_nth1 by lia. rewrite <- Q. cbv zeta.
    rewrite !app_length in *.
    destruct (N.ltb_spec (N.of_nat (length a + (length t + length b))) 59); [lia|].
    destruct (N.ltb_spec (N.of_nat (length a + (length t + length b))) (n + 16)); [lia|reflexivity].
  - destruct (cut_at 43 a ltac:(lia)) as (p & y & -> & Lp). destruct (rest_cut p Lp) as (id & fc & fi & va & R). rewrite app_nth1 in Q by lia.
    pose proof (tokens_length (nth 42 p 0) ltac:(lia)) as T. rewrite <- Q in T. rewrite app_length in La. rewrite <- !(app_assoc p). rewrite !R. cbv zeta. rewrite T.
    assert (Ly : length y = N.to_nat (n - 43)) by lia.
    assert (forall s, firstn (N.to_nat (n - 43)) (y ++ s) = y) as K1 by (intros s; rewrite <- Ly, <- (Nat.add_0_r (length y)), firstn_app_2; cbn [firstn]; apply app_nil_r).
    assert (forall s, length s = 16%nat -> skipn (N.to_nat (n - 43) + 16) (y ++ s ++ b) = b) as K2.
    { intros s Ls. rewrite app_assoc. rewrite skipn_app. rewrite skipn_all2 by (rewrite app_length; lia). rewrite app_length. replace (_ - _)%nat with 0%nat by lia. reflexivity. }
    rewrite !K1, !K2 by assumption. assert (blen (y ++ t' ++ b) = blen (y ++ t ++ b)) as -> by (unfold blen; rewrite !app_length; lia). reflexivity.
  - rewrite <- La, <- (Nat.add_0_r (length a)), firstn_app_2. cbn [firstn]. apply app_nil_r.
  - rewrite <- La, skipn_app, skipn_all, Nat.sub_diag. cbn [skipn]. change ([] ++ t' ++ b) with (t' ++ b). rewrite <- Lt', <- (Nat.add_0_r (length t')), firstn_app_2. cbn [firstn]. apply app_nil_r.
Qed.

(** A frame read with any HMAC is some frame read with the right one. *)
Lemma parse_retagged : forall E F key data, env_ok E -> leaves_bytes F -> bytes_ok data = true -> (length data <= 255)%nat ->
  parse_input_frame (hmac_env E F) key data = parse_input_frame E key data \/
  (hmac_failed F /\ exists data', bytes_ok data' = true /\ (length data' <= 255)%nat /\ parse_input_frame (hmac_env E F) key data = parse_input_frame E key data' /\
    ((exists a t t' b, data = a ++ t ++ b /\ data' = a ++ t' ++ b /\ length t = 16%nat /\ length t' = 16%nat /\ (43 <= length a)%nat) \/
     (exists s, (s = SW_NOT_ENOUGH_DATA \/ s = SW_BAD_FRAME_SIGNATURE) /\ parse_input_frame (hmac_env E F) key data = Fail s))).
Proof.
  intros E F key data HE HF Hb Hl. rewrite !parse_unfold. cbv zeta. destruct (N.eqb_spec (input_frame_data_length data) 0) as [Z|Z]; [left; reflexivity|].
  destruct (hmac_either E F key (firstn (N.to_nat (input_frame_data_length data)) data)) as [Hf|Q]; [|left; rewrite Q; reflexivity].
  right. split; [exact Hf|].
  assert (Wrong : forall a, exists t', length t' = 16%nat /\ bytes_ok t' = true /\ bytes_eqb (firstn 16 (e_hmac E key a)) t' = false).
  { intros a. apply bytes_neq; [apply firstn_length_le; rewrite (ok_hmac_len E HE); lia|apply bytes_ok_firstn, (ok_hmac_bytes E HE)]. }
  set (m := bytes_eqb (firstn 16 (e_hmac (hmac_env E F) key _)) _).
  destruct (N.le_gt_cases 43 (input_frame_data_length data)) as [B|B].
  - destruct (retag data _ eq_refl B) as (a & t & b & D & La & Lt & K). set (n := input_frame_data_length data) in *.
    assert (Bab : bytes_ok a = true /\ bytes_ok b = true).
    { rewrite D, !bytes_ok_app in Hb. apply andb_true_iff in Hb as [B1 B2]. apply andb_true_iff in B2 as [_ B2]. auto. }
    assert (exists t', length t' = 16%nat /\ bytes_ok t' = true /\ bytes_eqb (firstn 16 (e_hmac E key a)) t' = m) as (t' & Lt' & Bt' & Mt).
    { destruct m; [|apply Wrong]. exists (firstn 16 (e_hmac E key a)). rewrite bytes_eqb_refl.
      split; [apply firstn_length_le; rewrite (ok_hmac_len E HE); lia|]. split; [apply bytes_ok_firstn, (ok_hmac_bytes E HE)|reflexivity]. }
    destruct (K t' Lt') as (K1 & K2 & K3 & K4). exists (a ++ t' ++ b).
    split; [rewrite !bytes_ok_app, Bt', (proj1 Bab), (proj2 Bab); reflexivity|]. split; [rewrite D in Hl; rewrite !app_length in *; lia|].
    split; [|left; exists a, t, t', b; repeat split; try assumption; lia].
    rewrite parse_unfold. cbv zeta. rewrite K1, K2, K3, K4, Mt. destruct (N.eqb_spec n 0); [contradiction|]. reflexivity.
  - rewrite (over_refused data Hl Z B). destruct m; cbn [negb].
    + exists []. split; [reflexivity|]. split; [cbn; lia|]. split; [reflexivity|]. right. exists SW_NOT_ENOUGH_DATA. split; [left; reflexivity|reflexivity].
    + destruct (retag (repeat 0 59) 43 eq_refl ltac:(lia)) as (a & t & b & D & La & Lt & K). destruct (Wrong a) as (t' & Lt' & Bt' & Mt).
      destruct (K t' Lt') as (K1 & K2 & K3 & K4). 
      assert (Bab : bytes_ok a = true /\ bytes_ok b = true).
      { assert (bytes_ok (a ++ t ++ b) = true) as Hb' by (rewrite <- D; reflexivity). rewrite !bytes_ok_app in Hb'. apply andb_true_iff in Hb' as [B1 B2]. apply andb_true_iff in B2 as [_ B2]. auto. }
      assert (LD : length (a ++ t ++ b) = 59%nat) by (rewrite <- D; reflexivity). rewrite !app_length in LD.
      exists (a ++ t' ++ b). split; [rewrite !bytes_ok_app, Bt', (proj1 Bab), (proj2 Bab); reflexivity|]. split; [rewrite !app_length; lia|].
      split; [rewrite parse_unfold; cbv zeta; rewrite K1, K3, K4, Mt; reflexivity|]. right. exists SW_BAD_FRAME_SIGNATURE. split; [right; reflexivity|reflexivity].
Qed.

