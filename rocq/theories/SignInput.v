(** Preservation of the signing invariant: start, tokens, inputs and data inputs. *)
From Verif Require Import Lib Gve CodecProofs Env SpecVlq SpecTree SpecTx SpecAmounts Bip32 ErgoTree TxTable TxBox TxInput
  TxFull Amounts OutputInfo InputFrame P2pkOp App BoxProofs AmountProofs SignInv.

#[local] Arguments N.eqb : simpl never.
#[local] Arguments N.ltb : simpl never.
#[local] Arguments N.leb : simpl never.
#[local] Arguments N.sub : simpl never.
#[local] Arguments blen : simpl never.
#[local] Arguments num : simpl never.
#[local] Arguments slice : simpl never.

(** ** Fields of a command *)

Lemma slice_head : forall a l n, length a = n -> slice 0 n (a ++ l) = a.
Proof.
  intros a l n H. unfold slice. cbn [skipn]. rewrite firstn_app, firstn_all2 by lia.
  replace (n - length a)%nat with 0%nat by lia. apply app_nil_r.
Qed.
Lemma slice_skip : forall a l off n, (length a <= off)%nat -> slice off n (a ++ l) = slice (off - length a) n l.
Proof. intros. unfold slice. rewrite skipn_app, skipn_all2 by lia. reflexivity. Qed.
Lemma num_head : forall a l n, length a = n -> num 0 n (a ++ l) = be_value a.
Proof. intros. unfold num. rewrite slice_head by assumption. reflexivity. Qed.
Lemma num_skip : forall a l off n, (length a <= off)%nat -> num off n (a ++ l) = num (off - length a) n l.
Proof. intros. unfold num. rewrite slice_skip by assumption. reflexivity. Qed.
Lemma slice_all : forall a n, length a = n -> slice 0 n a = a.
Proof. intros. rewrite <- (app_nil_r a) at 1. apply slice_head. assumption. Qed.
Lemma num_all : forall a n, length a = n -> num 0 n a = be_value a.
Proof. intros. unfold num. rewrite slice_all by assumption. reflexivity. Qed.
Lemma num_bound : forall off n l, bytes_ok l = true -> num off n l < 256 ^ N.of_nat n.
Proof.
  intros. unfold num, slice.
  assert (B : bytes_ok (firstn n (skipn off l)) = true) by (apply bytes_ok_firstn, bytes_ok_skipn; assumption).
  apply be_value_bound in B. eapply N.lt_le_trans; [exact B|]. apply N.pow_le_mono_r; [lia|].
  unfold blen. pose proof (firstn_le_length n (skipn off l)). lia.
Qed.

Lemma rd_ok : forall A (x : option A) a, rd x = Ok a -> x = Some a.
Proof. intros A [x|] a H; inv H. reflexivity. Qed.
Lemma bind_ok : forall A B (x : out A) (f : A -> out B) b, bind x f = Ok b -> exists a, x = Ok a /\ f a = Ok b.
Proof. intros A B [a|s] f b H; [exists a; auto|discriminate]. Qed.
Lemma finished_ok : forall A l (a b : A), finished l a = Ok b -> l = [] /\ a = b.
Proof. intros A [|x l] a b H; inv H. auto. Qed.

(** A call that returned an error. *)
Ltac bad H := cbv beta iota zeta delta [full_res_error] in H; injection H as <- <-; discriminate.
(** Consume one [bind (rd (read_... l)) (fun '(v, l) => ...)] of a parser in [H]. *)
Ltac parse_one H b Hl :=
  apply bind_ok in H; destruct H as ([? ?] & Hl & H); apply rd_ok in Hl;
  apply read_be_spec in Hl; destruct Hl as (b & -> & Hl & ->).

(** Results of field lookups in a concatenation of known pieces. *)
Ltac fields :=
  repeat first
    [ rewrite num_head by assumption | rewrite slice_head by assumption
    | rewrite num_all by assumption | rewrite slice_all by assumption
    | rewrite num_skip by (repeat match goal with Hx : length _ = _ |- _ => rewrite Hx end; lia);
      match goal with Hx : length _ = _ |- _ => rewrite Hx end; cbn [Nat.sub]
    | rewrite slice_skip by (repeat match goal with Hx : length _ = _ |- _ => rewrite Hx end; lia);
      match goal with Hx : length _ = _ |- _ => rewrite Hx end; cbn [Nat.sub] ].

Lemma parse_tx_start_ok : forall data i d t o, parse_tx_start data = Ok (i, d, t, o) ->
  i = num 0 2 data /\ d = num 2 2 data /\ t = num 4 1 data /\ o = num 5 2 data /\ length data = 7%nat.
Proof.
  intros data i d t o H. unfold parse_tx_start in H.
  parse_one H b1 L1. parse_one H b2 L2. parse_one H b3 L3. parse_one H b4 L4.
  apply finished_ok in H as [-> H]. injection H as <- <- <- <-. rewrite app_nil_r.
  split; [fields; reflexivity|]. split; [fields; reflexivity|]. split; [fields; reflexivity|].
  split; [fields; reflexivity|]. rewrite !app_length. lia.
Qed.

(** ** Serializer calls *)

Lemma tx_result_ok : forall r, tx_result r = None -> res_pass r = true.
Proof. intros [] H; try reflexivity; discriminate. Qed.
Lemma tx_call_ok : forall c call c', tx_call c call = Ok c' ->
  exists t r s, op_union_of c = OU_TX t /\ call (op_fs c t) = (r, s) /\ res_pass r = true /\ c' = op_put c t s.
Proof.
  intros c call c' H. unfold tx_call in H. destruct (op_union_of c) as [|t|] eqn:Eu; try discriminate.
  destruct (call (op_fs c t)) as [r s] eqn:Ec. destruct (tx_result r) eqn:Er; [discriminate|].
  injection H as <-. exists t, r, s. split; [reflexivity|]. split; [assumption|]. split; [apply tx_result_ok; assumption|reflexivity].
Qed.

Definition fs_of (E : env) (s : session) (d : s_tx) (h : s_head) (c : cbctx) : fs cbctx :=
  mk_fs (full_of E d h) (ss_prefix s ++ tx_bytes E d h) c.

(** From the canonical serializer state back to the operation. *)
Lemma op_tx_put : forall E s d h op d' c',
  op_tx E s d h op -> op_phase d' h = op_phase d h -> amounts_rel d' (fst c') -> last_info E d' (snd c') ->
  last_approved (sx_outputs d') = last_approved (sx_outputs d) ->
  forall t, op_union_of op = OU_TX t ->
  op_tx E s d' h (op_put op t (fs_of E s d' h c')).
Proof.
  intros E s d h op d' c' (Hf & Hs & Hh & Ha & oi & Hi & Hu) Hp Ha' Hi' Hl t Ht.
  rewrite Hu in Ht. injection Ht as <-.
  split; [exact Hf|]. split; [cbn; congruence|]. split; [reflexivity|]. split; [exact Ha'|].
  exists (snd c'). split; [exact Hi'|]. cbn. rewrite Hl. reflexivity.
Qed.
Lemma op_tx_fs : forall E s d h op t, op_tx E s d h op -> op_union_of op = OU_TX t ->
  op_fs op t = fs_of E s d h (op_amounts op, tx_output t) /\ last_info E d (tx_output t).
Proof.
  intros E s d h op t (Hf & Hs & Hh & Ha & oi & Hi & Hu) Ht. rewrite Hu in Ht. injection Ht as <-.
  unfold op_fs, fs_of. rewrite Hh. auto.
Qed.

(** ** Start *)

Lemma amounts_rel_init : forall h, amounts_rel (mk_stx (Some h) [] [] [] []) amounts_init.
Proof.
  intro h. constructor; try reflexivity. constructor.
  - reflexivity.
  - cbn. lia.
  - intros i Hi. cbn [am_tokens amounts_init]. rewrite nth_repeat. rewrite first_out by (cbn; lia). reflexivity.
  - reflexivity.
  - reflexivity.
Qed.

Lemma start_ok : forall E s op data op',
  bytes_ok data = true -> op_new s op ->
  bind (parse_tx_start data) (fun '(i, d, t, o) => p2pk_start_tx op i d o t) = Ok op' ->
  exists h, wf E (describe_cmd s_empty 0x10 data) h /\ op_tx E s (describe_cmd s_empty 0x10 data) h op'.
Proof.
  intros E s op data op' Hok (Hfix & Hst & Hh & Ha & tok & Hu) H.
  apply bind_ok in H as ([[[i d] t] o] & Hp & H). apply parse_tx_start_ok in Hp as (-> & -> & -> & -> & Hl).
  unfold p2pk_start_tx in H. rewrite Hst in H. unfold full_init in H. rewrite Ha, Hh in H.
  destruct (N.eqb_spec (num 0 2 data) 0) as [E0|E0]; [discriminate|].
  destruct (N.eqb_spec (num 5 2 data) 0) as [E1|E1]; [discriminate|].
  unfold table_init in H. cbn [op_tget amounts_init am_table fst] in H. rewrite blen_nil in H.
  change (negb (0 =? 0)) with false in H. cbn [orb] in H. unfold TOKEN_MAX_COUNT in H.
  destruct (20 <? num 4 1 data) eqn:E2; [discriminate|].
  pose proof (num_bound 0 2 data Hok) as B0. pose proof (num_bound 2 2 data Hok) as B1.
  pose proof (num_bound 5 2 data Hok) as B3.
  change (256 ^ N.of_nat 2) with two16 in *.
  set (h := mk_sh (num 0 2 data) (num 2 2 data) (num 4 1 data) (num 5 2 data)).
  change (describe_cmd s_empty 0x10 data) with (mk_stx (Some h) [] [] [] []).
  set (dd := mk_stx (Some h) [] [] [] []).
  assert (Bn : inputs_in dd h = false).
  { unfold inputs_in, done_inputs, dd. cbn. rewrite count_nil. apply N.eqb_neq. lia. }
  exists h. split.
  - constructor; cbn; rewrite ?blen_nil; try reflexivity; try lia; try constructor; try congruence.
    all: intros pre x Hx; exfalso; eapply snoc_not_nil; symmetry; eassumption.
  - assert (Q : exists u st, union_of E dd h = u /\ phase_of dd h = st /\
       op' = mk_p2pk OP_TX_STARTED (op_key op) (op_path op) (ss_prefix s ++ gve_put_u16 (num 0 2 data)) (op_network op)
               amounts_init (OU_TX (mk_tx (mk_full st (num 0 2 data) (num 2 2 data) (num 5 2 data) (num 4 1 data) u) None []))).
    { unfold union_of, phase_of, tokens_in. rewrite Bn. cbn [dd sx_outputs sx_inputs sx_tokens h sh_tokens last_of rev].
      rewrite blen_nil, (N.eqb_sym 0).
      destruct (num 4 1 data =? 0); cbn in H; injection H as <-; do 2 eexists; split; try reflexivity; split; reflexivity. }
    destruct Q as (u & st & Qu & Qp & ->).
    split; [exact Hfix|]. split; [reflexivity|]. split.
    { cbn [op_hash]. unfold tx_bytes. rewrite Bn. cbn. rewrite put_vlq16, app_nil_r by assumption. reflexivity. }
    split; [apply amounts_rel_init|]. exists None. split; [reflexivity|].
    cbn [op_union_of]. unfold full_of. rewrite Qu, Qp. unfold done_inputs, done_outputs, dd, h. cbn.
    rewrite !count_nil, blen_nil, !N.sub_0_r. reflexivity.
Qed.

(** ** Distinct tokens *)

Lemma table_add_loop_ok : forall fuel distinct input t t',
  table_add_loop fuel distinct input t = (R_OK, t') -> blen t <= distinct ->
  Forall (fun e => length e = 32%nat) (entries 32 input) /\ t' = t ++ entries 32 input /\ blen t' <= distinct.
Proof.
  induction fuel as [|k IH]; intros distinct input t t' H Hle; cbn [table_add_loop] in H; [discriminate|].
  destruct input as [|x input].
  - injection H as <-. rewrite entries_nil, app_nil_r. split; [constructor|]. auto.
  - remember (x :: input) as inp eqn:Ein. clear Ein. unfold parse_token in H.
    destruct (distinct <=? blen t) eqn:Ed; [discriminate|].
    destruct (read_bytes ERGO_ID_LEN inp) as [[id rest]|] eqn:Er; [|discriminate].
    apply read_bytes_spec in Er as [-> Hl]. unfold ERGO_ID_LEN in Hl.
    apply IH in H.
    + destruct H as (H1 & H2 & H3). rewrite entries_app by (assumption || lia).
      split; [constructor; assumption|]. split; [|assumption]. rewrite H2, <- app_assoc. reflexivity.
    + rewrite blen_app. change (blen [id]) with 1. lia.
Qed.

Lemma nil_of_snoc_none : forall A (l : list A), last_of l = None -> l = [].
Proof. intros A l H. destruct (snoc_cases A l) as [->|(p & x & ->)]; [reflexivity|]. rewrite last_of_snoc in H. discriminate. Qed.

Lemma op_phase_started : forall d h, op_phase d h = OP_TX_STARTED -> sx_inputs d = [] /\ sx_outputs d = [].
Proof.
  intros d h H. unfold op_phase in H. destruct (sx_outputs d); [|destruct (outputs_in d h); discriminate].
  destruct (sx_inputs d); [auto|discriminate].
Qed.
Lemma op_phase_inputs : forall d h, op_phase d h = OP_INPUTS_STARTED -> sx_inputs d <> [] /\ sx_outputs d = [].
Proof.
  intros d h H. unfold op_phase in H. destruct (sx_outputs d); [|destruct (outputs_in d h); discriminate].
  destruct (sx_inputs d); [discriminate|split; [discriminate|reflexivity]].
Qed.
Lemma op_phase_outputs : forall d h, op_phase d h = OP_OUTPUTS_STARTED -> sx_outputs d <> [] /\ outputs_in d h = false.
Proof.
  intros d h H. unfold op_phase in H. destruct (sx_outputs d) eqn:E; [destruct (sx_inputs d); discriminate|].
  split; [discriminate|]. destruct (outputs_in d h); [discriminate|reflexivity].
Qed.

Lemma add_tokens_ok : forall E s d h op data op',
  wf E d h -> op_tx E s d h op -> p2pk_add_tokens op data = Ok op' ->
  wf E (describe_cmd d 0x11 data) h /\ op_tx E s (describe_cmd d 0x11 data) h op'.
Proof.
  intros E s d h op data op' W T H. unfold p2pk_add_tokens in H.
  pose proof T as (Hfix & Hst & Hh & Ha & oi & Hi & Hu).
  destruct (op_state_of op) eqn:Es; try discriminate.
  symmetry in Hst. apply op_phase_started in Hst as [Ein Eout].
  apply tx_call_ok in H as (t & r & s' & Ht & Hc & Hr & ->).
  destruct (op_tx_fs _ _ _ _ _ _ T Ht) as [Hfs Hinfo]. rewrite Hfs in Hc. clear Hfs.
  assert (Eoi : tx_output t = None).
  { unfold last_info in Hinfo. rewrite Eout in Hinfo. exact Hinfo. }
  rewrite Eoi in Hc.
  assert (Dn : forall x, done_inputs (mk_stx (sx_head d) x (sx_inputs d) (sx_data d) (sx_outputs d)) = 0).
  { intro x. unfold done_inputs. cbn. rewrite Ein. reflexivity. }
  assert (Bn : forall x, inputs_in (mk_stx (sx_head d) x (sx_inputs d) (sx_data d) (sx_outputs d)) h = false).
  { intro x. unfold inputs_in. rewrite Dn. apply N.eqb_neq. pose proof (w_inputs _ _ _ W). lia. }
  unfold full_add_tokens in Hc. unfold fs_of in Hc. cbn [fs_full fs_hash fs_cb full_of fl_state fl_distinct op_tget op_tset fst snd] in Hc.
  assert (Eph : phase_of d h = if tokens_in d h then FL_INPUTS_STARTED else FL_TOKENS_STARTED).
  { unfold phase_of. destruct (tokens_in d h); [|reflexivity]. cbn. specialize (Bn (sx_tokens d)).
    unfold inputs_in, done_inputs in *. cbn in Bn. rewrite Bn. reflexivity. }
  rewrite Eph in Hc. destruct (tokens_in d h) eqn:Et; [bad Hc|].
  unfold table_add in Hc. change (op_tget (op_amounts op, None)) with (am_table (op_amounts op)) in Hc.
  destruct (table_add_loop (S (length data)) (sh_tokens h) data (am_table (op_amounts op))) as [r1 t1] eqn:Etl.
  assert (Eti : table_of d = sx_tokens d).
  { unfold table_of, input_tokens. rewrite Ein. reflexivity. }
  destruct r1; try (bad Hc).
  2:{ exfalso. destruct Ha as [_ _ _ Hta _]. rewrite Hta in Etl. clear -Etl. revert Etl.
      generalize (S (length data)) as f. generalize (table_of d) as t. revert data t1.
      intros data t1 t f. revert data t. induction f as [|k IH]; intros data t H; cbn [table_add_loop] in H; [discriminate|].
      destruct data; [discriminate|]. unfold parse_token in H.
      destruct (sh_tokens h <=? blen t); [discriminate|].
      destruct (read_bytes ERGO_ID_LEN (n :: data)) as [[id rest]|]; [|discriminate]. eapply IH; eassumption. }
  pose proof Ha as [Ha1 Ha2 Ha3 Ha4 Ha5]. rewrite Ha4, Eti in Etl.
  apply table_add_loop_ok in Etl; [|apply W]. destruct Etl as (L1 & L2 & L3).
  set (d' := describe_cmd d 0x11 data).
  assert (Ed' : d' = mk_stx (sx_head d) t1 (sx_inputs d) (sx_data d) (sx_outputs d)) by (rewrite L2; reflexivity).
  assert (Edata : sx_data d = []).
  { destruct (sx_data d) eqn:X; [reflexivity|]. exfalso. assert (sx_data d <> []) as Y by congruence.
    apply (w_data_inputs _ _ _ W) in Y. specialize (Bn (sx_tokens d)). unfold inputs_in, done_inputs in *. cbn in Bn. congruence. }
  assert (W' : wf E d' h).
  { rewrite Ed'. destruct W. constructor; cbn; try assumption; try congruence.
    - rewrite L2. apply Forall_app. auto.
    - rewrite Eout. constructor. }
  split; [assumption|].
  assert (Hc' : s' = fs_of E s d' h (am_set_table t1 (op_amounts op), None) /\ True).
  { split; [|exact I]. rewrite Ed'. unfold fs_of.
    assert (Eb : tx_bytes E (mk_stx (sx_head d) t1 (sx_inputs d) (sx_data d) (sx_outputs d)) h = tx_bytes E d h).
    { unfold tx_bytes. rewrite Bn. specialize (Bn (sx_tokens d)). unfold inputs_in, done_inputs in *. cbn in *. rewrite Bn. reflexivity. }
    rewrite Eb. unfold full_of, phase_of, union_of. rewrite Bn, Dn.
    cbn [negb sx_outputs sx_inputs sx_data sx_tokens tokens_in].
    unfold full_of, phase_of, union_of in Hc. rewrite Et in Hc. cbn [negb] in Hc.
    rewrite Ein, Eout in Hc |- *. cbn [last_of rev] in Hc |- *.
    unfold done_inputs in Hc. rewrite Ein, count_nil in Hc. unfold done_outputs in *. cbn [sx_outputs]. rewrite Eout in Hc.
    unfold tokens_in. cbn [sx_tokens]. unfold table_is_finished in Hc.
    destruct (sh_tokens h <=? blen t1) eqn:Ef.
    - replace (blen t1 =? sh_tokens h) with true by (symmetry; apply N.eqb_eq; lia).
      cbv beta iota in Hc. injection Hc as <- <-. reflexivity.
    - replace (blen t1 =? sh_tokens h) with false by (symmetry; apply N.eqb_neq; lia).
      cbv beta iota in Hc. injection Hc as <- <-. reflexivity. }
  destruct Hc' as [-> _].
  apply (op_tx_put E s d h op d').
  - assumption.
  - unfold op_phase. rewrite Ed'. cbn. rewrite Ein, Eout. reflexivity.
  - rewrite Ed'. cbn [fst]. destruct Ha5 as [R1 R2 R3 R4 R5].
    assert (B0 : forall x, balance d x = 0%Z).
    { intro x. unfold balance, input_tokens, output_tokens. rewrite Ein, Eout. reflexivity. }
    assert (Z0 : forall i, (i < 20)%nat -> nth i (am_tokens (op_amounts op)) 0%Z = 0%Z).
    { intros i Hi'. rewrite R3 by assumption. rewrite B0. destruct (first _ _); reflexivity. }
    constructor; cbn.
    + rewrite Ha1. reflexivity.
    + exact Ha2.
    + exact Ha3.
    + unfold table_of, input_tokens. cbn. rewrite Ein. reflexivity.
    + constructor; cbn.
      * assumption.
      * unfold blen in L3. pose proof (w_tokens _ _ _ W). lia.
      * intros i Hi'. rewrite Z0 by assumption. unfold balance, input_tokens, output_tokens. cbn. rewrite Ein, Eout.
        cbn. destruct (first t1 i); reflexivity.
      * intros id _. unfold balance, input_tokens, output_tokens. cbn. rewrite Ein, Eout. reflexivity.
      * intros id. unfold balance, input_tokens, output_tokens. cbn. rewrite Ein, Eout. reflexivity.
  - unfold last_info. rewrite Ed'. cbn. rewrite Eout. reflexivity.
  - rewrite Ed'. reflexivity.
  - exact Ht.
Qed.

(** ** Input frames *)

Lemma num1_nth : forall n l, (n < length l)%nat -> num n 1 l = nth n l 0.
Proof.
  intros n l H. unfold num, slice. rewrite <- (firstn_skipn n l) at 2.
  rewrite app_nth2 by (rewrite firstn_length; lia).
  replace (n - length (firstn n l))%nat with 0%nat by (rewrite firstn_length; lia).
  destruct (skipn n l) as [|x t] eqn:E.
  - apply (f_equal (@length N)) in E. rewrite skipn_length in E. cbn in E. lia.
  - reflexivity.
Qed.

Definition tc_check (tc : N) : bool :=
  negb (u8 (tc * 40) mod 40 =? 0) ||
  (((u8 (tc * 40) =? 40 * (tc mod 32)) && (tc mod 32 <=? 6)) &&
   ((u8 (tc * 40 + 43) =? 43 + 40 * (tc mod 32)) || (5 <=? tc mod 32))).
Lemma tc_checked : forall tc, tc < 256 -> tc_check tc = true.
Proof.
  intros tc H.
  assert (G : forallb (fun i => tc_check (N.of_nat i)) (seq 0 256) = true) by (vm_compute; reflexivity).
  rewrite forallb_forall in G. specialize (G (N.to_nat tc)). rewrite N2Nat.id in G. apply G.
  apply in_seq. lia.
Qed.

Lemma entries_len : forall n l, (0 < n)%nat -> Forall (fun e => length e = n) (entries n l) ->
  exists k, length l = (k * n)%nat /\ k = length (entries n l).
Proof.
  intros n l Hn H. exists (length (entries n l)). split; [|reflexivity].
  rewrite <- (concat_entries n l Hn) at 1. induction H as [|e es He Hes IH]; [reflexivity|].
  cbn [concat length]. rewrite app_length, IH, He. lia.
Qed.

Record frame_ok (E : env) (key data : bytes) (f : input_frame) : Prop := mk_fo {
  fo_id : if_box_id f = slice 0 32 data;
  fo_id_len : length (if_box_id f) = 32%nat;
  fo_count : if_frames_count f = num 32 1 data;
  fo_index : if_index f = num 33 1 data;
  fo_value : if_value f = num 34 8 data;
  fo_tokens : if_tokens f = slice 43 (40 * frame_ntokens data) data;
  fo_ext : if_index f = 0 -> if_ext_len f = num (43 + 40 * frame_ntokens data + 16) 4 data;
  fo_ntokens : (frame_ntokens data <= 4)%nat;
  fo_len : (43 + 40 * frame_ntokens data + 16 <= length data)%nat;
  fo_tag : frame_tag data = firstn 16 (e_hmac E key (frame_body data)) }.

Lemma parse_input_frame_ok : forall E key data f,
  bytes_ok data = true -> blen data <= 255 -> parse_input_frame E key data = Ok f ->
  Forall (fun e => length e = 40%nat) (entries 40 (if_tokens f)) ->
  frame_ok E key data f.
Proof.
  intros E key data f Hok Hmax H Hen. unfold parse_input_frame, input_frame_data_length in H.
  unfold FRAME_MIN_SIZE, FRAME_TOKEN_COUNT_POSITION, FRAME_PAIR_SIZE, FRAME_PREFIX_LEN, FRAME_SIGNATURE_LEN in H.
  destruct (blen data <? 59) eqn:E1; [rewrite N.eqb_refl in H; discriminate|].
  destruct (blen data <? u8 (nth 42 data 0 * 40 + 43) + N.of_nat 16) eqn:E2; [rewrite N.eqb_refl in H; discriminate|].
  destruct (u8 (nth 42 data 0 * 40 + 43) =? 0); [discriminate|].
  destruct (bytes_eqb (firstn 16 (e_hmac E key (firstn (N.to_nat (u8 (nth 42 data 0 * 40 + 43))) data)))
         (firstn 16 (skipn (N.to_nat (u8 (nth 42 data 0 * 40 + 43))) data))) eqn:E3; [|discriminate].
  cbn [negb] in H. apply bytes_eqb_eq in E3.
  assert (Etc : num 42 1 data = nth 42 data 0) by (apply num1_nth; unfold blen in E1; lia).
  assert (Btc : nth 42 data 0 < 256).
  { rewrite <- Etc. apply (num_bound 42 1 data Hok). }
  apply bind_ok in H as ([id l0] & R0 & H). apply rd_ok in R0. apply read_bytes_spec in R0 as (D0 & L0).
  unfold ERGO_ID_LEN in L0. 
  apply bind_ok in H as ([fc l1] & R1 & H). apply rd_ok in R1. apply read_be_spec in R1 as (b1 & D1 & L1 & V1).
  apply bind_ok in H as ([fi l2] & R2 & H). apply rd_ok in R2. apply read_be_spec in R2 as (b2 & D2 & L2 & V2).
  apply bind_ok in H as ([va l3] & R3 & H). apply rd_ok in R3. apply read_be_spec in R3 as (b3 & D3 & L3 & V3).
  apply bind_ok in H as ([tc l4] & R4 & H). apply rd_ok in R4. apply read_be_spec in R4 as (b4 & D4 & L4 & V4).
  assert (D : data = id ++ b1 ++ b2 ++ b3 ++ b4 ++ l4) by (rewrite D0, D1, D2, D3, D4; reflexivity).
  assert (Etc' : tc = nth 42 data 0).
  { rewrite <- Etc, D. fields. assumption. }
  rewrite Etc' in H. clear Etc' V4 tc.
  destruct (blen l4 <? u8 (nth 42 data 0 * 40) + N.of_nat 16) eqn:E4; [discriminate|].
  assert (Hf : exists ext, f = mk_frame id fc fi va (firstn (N.to_nat (u8 (nth 42 data 0 * 40))) l4) ext /\
     (fi = 0 -> exists rest, read_u32 (skipn (N.to_nat (u8 (nth 42 data 0 * 40)) + 16) l4) = Some (ext, rest))).
  { destruct (N.eqb_spec fi 0) as [F0|F0].
    - apply bind_ok in H as ([ext l5] & R5 & H). apply rd_ok in R5. injection H as <-. exists ext. split; [reflexivity|].
      intros _. exists l5. assumption.
    - injection H as <-. exists 0. split; [reflexivity|]. congruence. }
  clear H. destruct Hf as (ext & -> & Hext). cbn [if_tokens] in Hen.
  assert (Ldata : length data = (43 + length l4)%nat) by (rewrite D, !app_length; lia).
  assert (Lt : length (firstn (N.to_nat (u8 (nth 42 data 0 * 40))) l4) = N.to_nat (u8 (nth 42 data 0 * 40))).
  { apply firstn_length_le. unfold blen in E4. lia. }
  destruct (entries_len 40 _ ltac:(lia) Hen) as (k & Hk & _). rewrite Lt in Hk.
  pose proof (tc_checked _ Btc) as T. unfold tc_check in T.
  set (tc := nth 42 data 0) in *. set (tl := u8 (tc * 40)) in *.
  assert (Hm : tl mod 40 =? 0 = true).
  { apply N.eqb_eq. replace tl with (N.of_nat k * 40) by lia. apply N.mod_mul. lia. }
  rewrite Hm in T. cbn [negb orb] in T. apply andb_true_iff in T as [T1 T2]. apply andb_true_iff in T1 as [T1 T3].
  apply N.eqb_eq in T1. apply N.leb_le in T3.
  unfold blen in Hmax, E4.
  assert (T4 : tc mod 32 <= 4).
  { destruct (5 <=? tc mod 32) eqn:E5; [|lia]. exfalso. apply N.leb_le in E5. lia. }
  replace (5 <=? tc mod 32) with false in T2 by (symmetry; apply N.leb_gt; lia).
  rewrite orb_false_r in T2. apply N.eqb_eq in T2.
  assert (Fn : frame_ntokens data = N.to_nat (tc mod 32)) by (unfold frame_ntokens; rewrite Etc; reflexivity).
  set (m := frame_ntokens data) in *.
  assert (Etl : N.to_nat tl = (40 * m)%nat) by lia.
  assert (Edl : N.to_nat (u8 (tc * 40 + 43)) = (43 + 40 * m)%nat) by lia.
  rewrite Edl in E3. rewrite Etl in Hext |- *.
  assert (S43 : forall off n, slice (43 + off) n data = slice off n l4).
  { intros off n. rewrite D. rewrite !slice_skip by lia. f_equal. lia. }
  constructor; cbn [if_box_id if_frames_count if_index if_value if_tokens if_ext_len].
  - rewrite D. fields. reflexivity.
  - assumption.
  - rewrite D. fields. assumption.
  - rewrite D. fields. assumption.
  - rewrite D. fields. assumption.
  - change 43%nat with (43 + 0)%nat. rewrite S43. reflexivity.
  - intro F0. destruct (Hext F0) as (rest & R5). apply read_be_spec in R5 as (b5 & D5 & L5 & V5).
    unfold num. rewrite <- Nat.add_assoc, S43. unfold slice. fold m. rewrite D5, firstn_app, firstn_all2 by lia.
    replace (4 - length b5)%nat with 0%nat by lia. rewrite app_nil_r. assumption.
  - lia.
  - lia.
  - unfold frame_tag, frame_body. fold m. symmetry. exact E3.
Qed.

(** ** Tokens of a frame *)

Lemma input_tokens_loop_ok : forall fuel s tokens s' b,
  bytes_ok tokens = true -> input_tokens_loop (Some p2pk_input_token_cb) fuel s tokens = (R_OK, s') ->
  am_rel (fst (is_cb s)) b -> (forall x, (0 <= b x)%Z) ->
  let l := map (fun e => (slice 0 32 e, num 32 8 e)) (entries 40 tokens) in
  Forall (fun e => length e = 40%nat) (entries 40 tokens) /\ Forall tok_ok l /\
  is_in s' = is_in s /\ is_hash s' = is_hash s /\ snd (is_cb s') = snd (is_cb s) /\
  am_fee (fst (is_cb s')) = am_fee (fst (is_cb s)) /\ am_value (fst (is_cb s')) = am_value (fst (is_cb s)) /\
  am_table (fst (is_cb s')) = fold_left add_id (map fst l) (am_table (fst (is_cb s))) /\
  am_rel (fst (is_cb s')) (fun x => (b x + Z.of_N (amount_of x l))%Z).
Proof.
  induction fuel as [|k IH]; intros s tokens s' b Hok H R Hpos; cbn [input_tokens_loop] in H; [discriminate|].
  destruct tokens as [|x tokens].
  - injection H as <-. rewrite entries_nil. cbn [map fold_left]. do 2 (split; [constructor|]).
    do 6 (split; [reflexivity|]). eapply am_rel_ext; [|exact R]. intro y. cbn. lia.
  - remember (x :: tokens) as inp eqn:Ei. clear Ei.
    destruct (read_bytes ERGO_ID_LEN inp) as [[id rest]|] eqn:E1; [|discriminate].
    apply read_bytes_spec in E1 as [-> L1]. unfold ERGO_ID_LEN in L1.
    destruct (read_u64 rest) as [[v rest']|] eqn:E2; [|discriminate].
    apply read_be_spec in E2 as (vb & -> & L2 & ->).
    rewrite !bytes_ok_app in Hok. apply andb_true_iff in Hok as [O1 Hok]. apply andb_true_iff in Hok as [O2 O3].
    unfold p2pk_input_token_cb at 1 in H. destruct (amounts_add_input_token (fst (is_cb s)) id (be_value vb)) as [r a] eqn:E3.
    destruct r; try discriminate.
    assert (Bv : be_value vb < two64).
    { apply be_value_bound in O2. unfold blen in O2. rewrite L2 in O2. exact O2. }
    destruct (add_input_token_ok _ _ _ _ _ R Hpos Bv E3) as (R' & F1 & F2 & F3).
    apply (IH _ _ _ (upd b id (Z.of_N (be_value vb))) O3) in H.
    + cbn [is_cb is_in is_hash fst snd] in H. destruct H as (G1 & G2 & G3 & G4 & G5 & G6 & G7 & G8 & G9).
      assert (Een : entries 40 (id ++ vb ++ rest') = (id ++ vb) :: entries 40 rest').
      { rewrite app_assoc. apply entries_app; [lia|]. rewrite app_length. lia. }
      cbv zeta. rewrite Een. cbn [map].
      replace (slice 0 32 (id ++ vb)) with id by (symmetry; apply slice_head; assumption).
      replace (num 32 8 (id ++ vb)) with (be_value vb).
      2:{ rewrite num_skip by lia. rewrite L1. cbn [Nat.sub]. rewrite num_all by assumption. reflexivity. }
      split; [constructor; [rewrite app_length; lia|assumption]|].
      split; [constructor; [split; assumption|assumption]|].
      do 3 (split; [assumption|]). split; [congruence|]. split; [congruence|]. split.
      * cbn [fst fold_left]. rewrite G8, F3. unfold add_id at 2. reflexivity.
      * eapply am_rel_ext; [|exact G9]. intro y. unfold upd. rewrite amount_of_cons.
        destruct (bytes_eqb id y); lia.
    + exact R'.
    + intro y. unfold upd. specialize (Hpos y). destruct (bytes_eqb id y); lia.
Qed.

(** ** The end of the inputs *)

Lemma table_prefix : forall ids t, exists ext, fold_left add_id ids t = t ++ ext.
Proof.
  induction ids as [|x ids IH]; intro t; cbn [fold_left].
  - exists []. symmetry. apply app_nil_r.
  - destruct (IH (add_id t x)) as (ext & E). rewrite E. unfold add_id.
    destruct (existsb (bytes_eqb x) t); [exists ext; reflexivity|]. exists ([x] ++ ext). rewrite app_assoc. reflexivity.
Qed.
Lemma map_nth_seq : forall (l ext : list bytes) z, map (fun i => nth i (l ++ ext) z) (seq 0 (length l)) = l.
Proof.
  induction l as [|x l IH]; intros ext z; [reflexivity|]. cbn [length seq map app nth]. f_equal.
  rewrite <- seq_shift, map_map. cbn [nth]. apply IH.
Qed.
Lemma table_hash : forall d h, tokens_in d h = true -> sh_tokens h <= 20 ->
  table_hash_bytes (sh_tokens h) (table_of d) = vlq (sh_tokens h) ++ concat (sx_tokens d).
Proof.
  intros d h Ht Hle. unfold tokens_in in Ht. apply N.eqb_eq in Ht. unfold table_hash_bytes, table_of.
  destruct (table_prefix (map fst (input_tokens d)) (sx_tokens d)) as (ext & E). rewrite E.
  rewrite put_vlq32 by (unfold two32; lia). rewrite <- Ht at 2. unfold blen. rewrite Nat2N.id, map_nth_seq. reflexivity.
Qed.

Lemma data_finished_ok : forall E s d h (c : cbctx) hash,
  wf E d h -> tokens_in d h = true -> inputs_in d h = true -> data_in d h = true -> sx_outputs d = [] ->
  am_table (fst c) = table_of d ->
  hash = ss_prefix s ++ vlq (sh_inputs h) ++ concat (map in_bytes (sx_inputs d)) ++ vlq (sh_data h) ++ concat (sx_data d) ->
  data_inputs_finished op_tget
    (mk_fs (mk_full FL_DATA_INPUTS_STARTED 0 0 (sh_outputs h) (sh_tokens h) (union_of E d h)) hash c)
  = (R_OK, fs_of E s d h c).
Proof.
  intros E s d h c hash W Ht Hin Hd Ho Hta ->. unfold data_inputs_finished, fs_of, fs_feed, fs_with_state, fs_with_full, full_set_state.
  cbn [fs_full fs_hash fs_cb fl_distinct fl_outputs_count fl_inputs_count fl_data_inputs_count fl_union].
  unfold op_tget. rewrite Hta. rewrite table_hash by (assumption || apply W).
  rewrite put_vlq16 by apply W. f_equal.
  assert (Do : done_outputs d = 0) by (unfold done_outputs; rewrite Ho; reflexivity).
  f_equal.
  - unfold full_of, phase_of, outputs_in. rewrite Ht, Hin, Hd, Do. cbn [negb].
    pose proof (w_outputs _ _ _ W). replace (0 =? sh_outputs h) with false by (symmetry; apply N.eqb_neq; lia).
    cbn [negb]. apply N.eqb_eq in Hin. apply N.eqb_eq in Hd. rewrite Hin, Hd, !N.sub_diag, N.sub_0_r. reflexivity.
  - unfold tx_bytes. rewrite Hin, Hd, Ho. cbn [map concat]. rewrite app_nil_r, <- !app_assoc. reflexivity.
Qed.

Lemma input_complete_bytes : forall i, input_complete i = true -> in_bytes i = input_bytes i.
Proof. intros i H. unfold input_complete in H. apply andb_true_iff in H as [H _]. unfold in_bytes, frames_in. rewrite H. reflexivity. Qed.

Lemma done_snoc : forall d pre i, sx_inputs d = pre ++ [i] -> Forall (fun x => input_complete x = true) pre ->
  done_inputs d = blen pre + if input_complete i then 1 else 0.
Proof. intros d pre i E F. unfold done_inputs. rewrite E, count_app, count_one, count_all by assumption. reflexivity. Qed.

Lemma input_finished_ok : forall E s d h (c : cbctx) pre i hash,
  wf E d h -> tokens_in d h = true -> sx_inputs d = pre ++ [i] -> input_complete i = true ->
  sx_data d = [] -> sx_outputs d = [] -> am_table (fst c) = table_of d ->
  hash = ss_prefix s ++ vlq (sh_inputs h) ++ concat (map in_bytes (sx_inputs d)) ->
  input_finished op_tget
    (mk_fs (mk_full FL_INPUTS_STARTED (sh_inputs h - blen pre) (sh_data h) (sh_outputs h) (sh_tokens h)
              (FU_INPUT (in_of i) true)) hash c)
  = (R_OK, fs_of E s d h c).
Proof.
  intros E s d h c pre i hash W Ht Ei Hc Hd Ho Hta ->.
  pose proof (done_snoc d pre i Ei (w_in_last _ _ _ W _ _ Ei)) as Dn. rewrite Hc in Dn.
  assert (Hlt : blen pre < sh_inputs h).
  { pose proof (w_in_le _ _ _ W) as X. rewrite Ei, blen_app in X. change (blen [i]) with 1 in X. lia. }
  pose proof (w_inputs _ _ _ W) as Bi.
  unfold input_finished. cbn [fs_full fl_inputs_count].
  assert (En : u16 (sh_inputs h - blen pre + two16 - 1) = sh_inputs h - done_inputs d).
  { rewrite Dn. unfold u16, two16 in *. symmetry. apply N.mod_unique with 1; lia. }
  rewrite En.
  assert (Eu : union_of E d h = FU_INPUT (in_of i) true).
  { unfold union_of. rewrite Ho, Ei, last_of_snoc. reflexivity. }
  assert (Do : done_outputs d = 0) by (unfold done_outputs; rewrite Ho; reflexivity).
  destruct (N.eqb_spec (sh_inputs h - done_inputs d) 0) as [Ez|Ez].
  - assert (Hin : inputs_in d h = true) by (apply N.eqb_eq; lia).
    unfold fs_with_full, fs_feed, fs_with_state, full_set_inputs, full_set_state. cbn [fs_full fs_hash fs_cb fl_data_inputs_count
       fl_inputs_count fl_outputs_count fl_distinct fl_union fl_state].
    unfold fs_with_full. cbn [fs_full fs_hash fs_cb fl_data_inputs_count fl_inputs_count fl_outputs_count fl_distinct fl_union].
    rewrite put_vlq16 by apply W.
    destruct (N.eqb_spec (sh_data h) 0) as [E0|E0].
    + rewrite Ez, E0. rewrite <- Eu. apply data_finished_ok; try assumption.
      * unfold data_in. rewrite Hd, E0. reflexivity.
      * rewrite Hd. cbn [concat]. rewrite !app_nil_r, <- !app_assoc. rewrite E0. reflexivity.
    + unfold fs_of. f_equal. f_equal.
      * unfold full_of, phase_of, data_in. rewrite Ht, Hin, Hd, Do, blen_nil, N.sub_0_r, Eu. cbn [negb].
        rewrite N.eqb_sym. rewrite (proj2 (N.eqb_neq _ _) E0). rewrite N.sub_0_r. reflexivity.
      * unfold tx_bytes, data_in. rewrite Hin, Hd, blen_nil. cbn [concat]. rewrite N.eqb_sym.
        rewrite (proj2 (N.eqb_neq _ _) E0). rewrite !app_nil_r, <- !app_assoc. reflexivity.
  - assert (Hin : inputs_in d h = false) by (apply N.eqb_neq; lia).
    unfold fs_of, fs_with_full, full_set_inputs. cbn [fs_full fs_hash fs_cb fl_data_inputs_count
       fl_inputs_count fl_outputs_count fl_distinct fl_union fl_state]. f_equal. f_equal.
    + unfold full_of, phase_of. rewrite Ht, Hin, Hd, Do, blen_nil, !N.sub_0_r, Eu. reflexivity.
    + unfold tx_bytes. rewrite Hin, app_nil_r. reflexivity.
Qed.

(** ** Frames *)

Definition add_frame (i : s_input) (l : list (bytes * N)) : s_input :=
  mk_si (si_id i) (si_value i) (si_count i) (si_frames i ++ [l]) (si_ext_len i) (si_ext i).

Lemma wf_more_inputs : forall E d h ins,
  wf E d h -> tokens_in d h = true -> sx_outputs d = [] -> sx_data d = [] ->
  Forall in_wf ins -> (forall pre i, ins = pre ++ [i] -> Forall (fun x => input_complete x = true) pre) ->
  blen ins <= sh_inputs h ->
  wf E (on_inputs (fun _ => ins) d) h.
Proof.
  intros E d h ins W Ht Ho Hd F1 F2 F3. destruct W. constructor; cbn; try assumption; try congruence.
  intros _. exact Ht.
Qed.

Lemma input_tokens_loop_more : forall f s tokens s1,
  input_tokens_loop (Some p2pk_input_token_cb) f s tokens <> (R_MORE_DATA, s1).
Proof.
  induction f as [|k IH]; intros s tokens s1 H; cbn [input_tokens_loop] in H; [discriminate|].
  destruct tokens; [discriminate|]. destruct (read_bytes ERGO_ID_LEN (n :: tokens)) as [[id rest]|]; [|discriminate].
  destruct (read_u64 rest) as [[v rest']|]; [|discriminate].
  unfold p2pk_input_token_cb at 1 in H. destruct (amounts_add_input_token (fst (is_cb s)) id v) as [r a] eqn:Ea.
  destruct r; try discriminate; [eapply IH; eassumption|].
  unfold amounts_add_input_token in Ea. repeat (case_match_in Ea; try discriminate).
Qed.

Lemma frame_step : forall E s d h pre i toks (c : cbctx) idx tokens box_id r s' b,
  let d' := on_inputs (fun _ => pre ++ [add_frame i toks]) d in
  toks = map (fun e => (slice 0 32 e, num 32 8 e)) (entries 40 tokens) ->
  bytes_ok tokens = true -> si_ext i = [] -> si_count i < 256 ->
  length (si_id i) = 32%nat -> si_value i < two64 -> si_ext_len i <> 1 -> si_ext_len i <= 32768 ->
  Forall (Forall tok_ok) (si_frames i) ->
  wf E d h -> tokens_in d h = true -> sx_outputs d = [] -> sx_data d = [] ->
  Forall in_wf pre -> Forall (fun x => input_complete x = true) pre -> blen pre < sh_inputs h ->
  am_rel (fst c) b -> (forall x, (0 <= b x)%Z) ->
  (Forall tok_ok toks -> fold_left add_id (map fst toks) (am_table (fst c)) = table_of d') ->
  full_add_input_tokens op_tget p2pk_input_token_cb
    (mk_fs (mk_full FL_INPUTS_STARTED (sh_inputs h - blen pre) (sh_data h) (sh_outputs h) (sh_tokens h)
              (FU_INPUT (mk_input IN_FRAMES_STARTED (si_id i) (si_count i) (blen (si_frames i)) (si_ext_len i)) true))
           (ss_prefix s ++ vlq (sh_inputs h) ++ concat (map in_bytes pre)) c) box_id idx tokens = (r, s') ->
  res_pass r = true ->
  si_id i = box_id /\ idx = blen (si_frames i) /\ idx < si_count i /\
  Forall (fun e => length e = 40%nat) (entries 40 tokens) /\ Forall tok_ok toks /\ wf E d' h /\
  exists c', s' = fs_of E s d' h c' /\ snd c' = snd c /\
    am_fee (fst c') = am_fee (fst c) /\ am_value (fst c') = am_value (fst c) /\
    am_table (fst c') = table_of d' /\ am_rel (fst c') (fun x => (b x + Z.of_N (amount_of x toks))%Z).
Proof.
  intros E s d h pre i toks c idx tokens box_id r s' b d' Etoks Hok Hext Hcnt Hid Hval He1 He2 Hfr W Ht Ho Hd Fp Cp Hlt R Hpos Htab H Hr.
  unfold full_add_input_tokens in H. cbn [fs_full fl_state] in H. unfold on_input in H.
  cbn [fs_full fl_union fs_hash fs_cb] in H. unfold input_add_tokens in H. cbn [is_in in_state in_box_id in_frames_count in_frames_processed] in H.
  destruct (bytes_eqb (si_id i) box_id) eqn:E1; cbn [negb] in H; [|bad H].
  apply bytes_eqb_eq in E1. split; [assumption|].
  destruct (si_count i <=? idx) eqn:E2; [bad H|].
  destruct (N.eqb_spec idx (blen (si_frames i))) as [E3|E3]; cbn [negb] in H; [|bad H].
  split; [assumption|]. split; [lia|]. cbv beta iota in H.
  destruct (input_tokens_loop (Some p2pk_input_token_cb) (S (length tokens))
     (mk_ins (mk_input IN_FRAMES_STARTED (si_id i) (si_count i) (blen (si_frames i)) (si_ext_len i))
             (ss_prefix s ++ vlq (sh_inputs h) ++ concat (map in_bytes pre)) c) tokens) as [r1 s1] eqn:E4.
  destruct (res_pass r1) eqn:Er1.
  2:{ destruct r1; try discriminate; bad H. }
  assert (r1 = R_OK) as ->.
  { destruct r1; try discriminate; [reflexivity|]. exfalso. eapply input_tokens_loop_more. eassumption. }
  destruct (input_tokens_loop_ok _ _ _ _ b Hok E4 R Hpos) as (G1 & G2 & G3 & G4 & G5 & G6 & G7 & G8 & G9).
  cbv zeta in G2, G8, G9. rewrite <- Etoks in G2, G8, G9. cbn [is_in is_hash is_cb] in G3, G4, G5, G6, G7, G8.
  split; [assumption|]. split; [assumption|].
  assert (Wi : in_wf (add_frame i toks)).
  { constructor; cbn; try assumption.
    - rewrite blen_app. change (blen [toks]) with 1. lia.
    - rewrite Hext, blen_nil. lia.
    - intros _. assumption.
    - apply Forall_app. split; [assumption|]. constructor; [assumption|constructor]. }
  assert (W' : wf E d' h).
  { apply wf_more_inputs; try assumption.
    - apply Forall_snoc. auto.
    - intros p x Ex. apply snoc_inj in Ex as [<- _]. assumption.
    - rewrite blen_app. change (blen [add_frame i toks]) with 1. lia. }
  split; [assumption|]. exists (is_cb s1). rewrite Htab in G8 by assumption.
  do 1 (split; [|do 4 (split; [assumption|]); assumption]).
  assert (Ei : sx_inputs d' = pre ++ [add_frame i toks]) by reflexivity.
  assert (Ht' : tokens_in d' h = true) by exact Ht.
  assert (Eu : union_of E d' h = FU_INPUT (in_of (add_frame i toks)) true).
  { unfold union_of. cbn [d' on_inputs sx_outputs sx_inputs]. rewrite Ho, last_of_snoc. reflexivity. }
  assert (Do : done_outputs d' = 0) by (unfold done_outputs; cbn; rewrite Ho; reflexivity).
  assert (Dn := done_snoc d' pre (add_frame i toks) Ei Cp).
  assert (Hconc : concat (map in_bytes (sx_inputs d')) = concat (map in_bytes pre) ++ in_bytes (add_frame i toks)).
  { rewrite Ei, map_app, concat_app. cbn. rewrite app_nil_r. reflexivity. }
  unfold input_frame_done in H. rewrite G3 in H. cbn [in_frames_processed in_frames_count in_ext_size in_state in_box_id] in H.
  assert (Ep : u8 (blen (si_frames i) + 1) = blen (si_frames (add_frame i toks))).
  { cbn [add_frame si_frames]. rewrite blen_app. change (blen [toks]) with 1. unfold u8, two8. apply N.mod_small. lia. }
  rewrite Ep in H.
  assert (Einc : forall x, in_state x = IN_FINISHED \/ in_state x <> IN_FINISHED).
  { intros x. destruct (in_state x); auto; right; discriminate. }
  destruct (N.eqb_spec (blen (si_frames (add_frame i toks))) (si_count i)) as [Ef|Ef].
  - assert (Hfi : frames_in (add_frame i toks) = true) by (unfold frames_in; apply N.eqb_eq; exact Ef).
    destruct (N.eqb_spec (si_ext_len i) 0) as [Ez|Ez].
    + assert (Hic : input_complete (add_frame i toks) = true).
      { unfold input_complete. fold (frames_in (add_frame i toks)). rewrite Hfi. cbn. rewrite Hext, Ez. reflexivity. }
      assert (Eio : in_of (add_frame i toks) = mk_input IN_FINISHED (si_id i) (si_count i) (blen (si_frames (add_frame i toks))) (si_ext_len i)).
      { unfold in_of. rewrite Hfi. cbn [negb add_frame si_ext si_ext_len si_id si_count]. rewrite Hext, Ez. reflexivity. }
      unfold in_set_state in H. cbn [is_in is_hash is_cb in_state in_box_id in_frames_count in_frames_processed in_ext_size full_set_union
        fs_full fl_state fl_inputs_count fl_data_inputs_count fl_outputs_count fl_distinct fl_union] in H.
      rewrite <- Eio in H.
      rewrite (input_finished_ok E s d' h (is_cb s1) pre (add_frame i toks)) in H; try assumption.
      * injection H as _ <-. reflexivity.
      * rewrite Hconc, G4. rewrite <- !app_assoc. do 3 f_equal. rewrite input_complete_bytes by assumption.
        unfold input_bytes. cbn [add_frame si_id si_ext_len]. rewrite Ez. rewrite E1. reflexivity.
    + assert (Hic : input_complete (add_frame i toks) = false).
      { unfold input_complete. cbn. rewrite Hext, blen_nil. apply andb_false_iff. right. apply N.eqb_neq. lia. }
      assert (Eio : in_of (add_frame i toks) = mk_input IN_EXTENSION_STARTED (si_id i) (si_count i) (blen (si_frames (add_frame i toks))) (si_ext_len i)).
      { unfold in_of. rewrite Hfi. cbn [negb add_frame si_ext si_ext_len si_id si_count]. rewrite Hext, blen_nil, N.sub_0_r.
        rewrite N.eqb_sym, (proj2 (N.eqb_neq _ _) Ez). reflexivity. }
      unfold in_set_state in H. cbn [is_in is_hash is_cb in_state in_box_id in_frames_count in_frames_processed in_ext_size full_set_union
        fs_full fl_state fl_inputs_count fl_data_inputs_count fl_outputs_count fl_distinct fl_union] in H.
      rewrite <- Eio in H. injection H as _ <-.
      rewrite Hic, N.add_0_r in Dn.
      assert (Hin : inputs_in d' h = false) by (unfold inputs_in; apply N.eqb_neq; lia).
      unfold fs_of. f_equal.
      * unfold full_of, phase_of. rewrite Ht', Hin, Do, Eu, Dn. cbn [negb d' on_inputs sx_data]. rewrite Hd, blen_nil, !N.sub_0_r. reflexivity.
      * unfold tx_bytes. rewrite Hin, app_nil_r, Hconc, G4. rewrite <- !app_assoc. do 3 f_equal.
        unfold in_bytes. rewrite Hfi. cbn [add_frame si_id si_ext_len si_ext]. rewrite (proj2 (N.eqb_neq _ _) Ez), Hext, E1. reflexivity.
  - assert (Hfi : frames_in (add_frame i toks) = false) by (unfold frames_in; apply N.eqb_neq; exact Ef).
    assert (Hic : input_complete (add_frame i toks) = false).
    { unfold input_complete. fold (frames_in (add_frame i toks)). rewrite Hfi. reflexivity. }
    assert (Eio : in_of (add_frame i toks) = mk_input IN_FRAMES_STARTED (si_id i) (si_count i) (blen (si_frames (add_frame i toks))) (si_ext_len i)).
    { unfold in_of. rewrite Hfi. cbn [negb add_frame si_ext si_ext_len si_id si_count]. rewrite Hext, blen_nil, N.sub_0_r. reflexivity. }
    cbn [is_in is_hash is_cb in_state in_box_id in_frames_count in_frames_processed in_ext_size full_set_union
        fs_full fl_state fl_inputs_count fl_data_inputs_count fl_outputs_count fl_distinct fl_union] in H.
    rewrite <- Eio in H. injection H as _ <-.
    rewrite Hic, N.add_0_r in Dn.
    assert (Hin : inputs_in d' h = false) by (unfold inputs_in; apply N.eqb_neq; lia).
    unfold fs_of. f_equal.
    + unfold full_of, phase_of. rewrite Ht', Hin, Do, Eu, Dn. cbn [negb d' on_inputs sx_data]. rewrite Hd, blen_nil, !N.sub_0_r. reflexivity.
    + unfold tx_bytes. rewrite Hin, app_nil_r, Hconc, G4.
      assert (Eb : in_bytes (add_frame i toks) = []) by (unfold in_bytes; rewrite Hfi; reflexivity).
      rewrite Eb, app_nil_r. reflexivity.
Qed.

Lemma parse_input_frame_bounds : forall E key data f,
  bytes_ok data = true -> parse_input_frame E key data = Ok f ->
  length (if_box_id f) = 32%nat /\ if_frames_count f < 256 /\ if_value f < two64 /\ bytes_ok (if_tokens f) = true.
Proof.
  intros E key data f Hok H. unfold parse_input_frame in H.
  destruct (input_frame_data_length data =? 0); [discriminate|].
  destruct (negb (bytes_eqb _ _)); [discriminate|].
  apply bind_ok in H as ([id l0] & R0 & H). apply rd_ok in R0. apply read_bytes_spec in R0 as (D0 & L0).
  apply bind_ok in H as ([fc l1] & R1 & H). apply rd_ok in R1. apply read_be_spec in R1 as (b1 & D1 & L1 & V1).
  apply bind_ok in H as ([fi l2] & R2 & H). apply rd_ok in R2. apply read_be_spec in R2 as (b2 & D2 & L2 & V2).
  apply bind_ok in H as ([va l3] & R3 & H). apply rd_ok in R3. apply read_be_spec in R3 as (b3 & D3 & L3 & V3).
  apply bind_ok in H as ([tc l4] & R4 & H). apply rd_ok in R4. apply read_be_spec in R4 as (b4 & D4 & L4 & V4).
  rewrite D0, D1, D2, D3, D4, !bytes_ok_app in Hok. repeat (apply andb_true_iff in Hok as [? Hok]).
  assert (F : exists ext, f = mk_frame id fc fi va (firstn (N.to_nat (u8 (tc * FRAME_PAIR_SIZE))) l4) ext).
  { destruct (blen l4 <? _); [discriminate|]. destruct (fi =? 0).
    - apply bind_ok in H as ([ext l5] & R5 & H). injection H as <-. eexists. reflexivity.
    - injection H as <-. eexists. reflexivity. }
  destruct F as (ext & ->). cbn [if_box_id if_frames_count if_value if_tokens].
  split; [assumption|]. split; [|split; [|apply bytes_ok_firstn; assumption]].
  - rewrite V1. assert (B : bytes_ok b1 = true) by assumption. apply be_value_bound in B. unfold blen in B. rewrite L1 in B. exact B.
  - rewrite V3. assert (B : bytes_ok b3 = true) by assumption. apply be_value_bound in B. unfold blen in B. rewrite L3 in B. exact B.
Qed.

Lemma input_tokens_snoc : forall d pre i toks,
  input_tokens (on_inputs (fun _ => pre ++ [add_frame i toks]) d) =
  concat (map (fun x => concat (si_frames x)) pre) ++ concat (si_frames i) ++ toks.
Proof.
  intros. unfold input_tokens. cbn [on_inputs sx_inputs]. rewrite map_app, concat_app. cbn [map concat add_frame si_frames].
  rewrite concat_app. cbn [concat]. rewrite !app_nil_r. reflexivity.
Qed.

Lemma balance_inputs : forall d x, sx_outputs d = [] -> balance d x = Z.of_N (amount_of x (input_tokens d)).
Proof. intros d x H. unfold balance, output_tokens. rewrite H. cbn. lia. Qed.

Lemma sums_no_outputs : forall d, sx_outputs d = [] -> fees d = 0 /\ change d = 0.
Proof. intros d H. unfold fees, change. rewrite H. auto. Qed.

Lemma total_in_snoc : forall d pre i, sx_inputs d = pre ++ [i] -> total_in d = total (map si_value pre) + si_value i.
Proof. intros d pre i H. unfold total_in. rewrite H, map_app, total_app. cbn. lia. Qed.

Lemma union_inputs : forall E d h pre i, sx_outputs d = [] -> sx_inputs d = pre ++ [i] ->
  union_of E d h = FU_INPUT (in_of i) true.
Proof. intros E d h pre i Ho Hi. unfold union_of. rewrite Ho, Hi, last_of_snoc. reflexivity. Qed.

(** Facts on the frame just accepted, for the provenance of input amounts. *)
Definition frame_at (E : env) (key : bytes) (d' : s_tx) (data : bytes) : Prop :=
  exists pre i fr, sx_inputs d' = pre ++ [i] /\ si_frames i = fr ++ [frame_tokens data] /\
    si_id i = slice 0 32 data /\ num 33 1 data = blen fr /\ num 33 1 data < si_count i /\
    (fr = [] -> si_count i = num 32 1 data /\ si_value i = num 34 8 data) /\
    (43 + 40 * frame_ntokens data + 16 <= length data)%nat /\ (frame_ntokens data <= 4)%nat /\
    frame_tag data = firstn 16 (e_hmac E key (frame_body data)).

Lemma add_input_frame_ok : forall E s key d h op data op',
  bytes_ok data = true -> blen data <= 255 -> wf E d h -> op_tx E s d h op ->
  bind (parse_input_frame E key data) (fun f =>
              bind (if if_index f =? 0
                    then p2pk_add_input op (if_box_id f) (if_value f) (if_frames_count f) (if_ext_len f)
                    else Ok op) (fun op =>
              p2pk_add_input_tokens op (if_box_id f) (if_index f) (if_tokens f))) = Ok op' ->
  wf E (describe_cmd d 0x12 data) h /\ op_tx E s (describe_cmd d 0x12 data) h op' /\
  frame_at E key (describe_cmd d 0x12 data) data.
Proof.
  intros E s key d h op data op' Hok Hmax W T H.
  apply bind_ok in H as (f & Hp & H). destruct (parse_input_frame_bounds _ _ _ _ Hok Hp) as (B1 & B2 & B3 & B4).
  set (toks := map (fun e => (slice 0 32 e, num 32 8 e)) (entries 40 (if_tokens f))).
  pose proof T as (Hfix & Hst & Hh & Ha & oi & Hi & Hu).
  apply bind_ok in H as (op1 & H1 & H2).
  destruct (N.eqb_spec (if_index f) 0) as [E0|E0].
  - (* first frame of a new input *)
    unfold p2pk_add_input in H1.
    assert (Ho : sx_outputs d = []).
    { rewrite Hst in H1. unfold op_phase in H1. destruct (sx_outputs d); [reflexivity|].
      destruct (outputs_in d h); discriminate. }
    assert (H1' : bind (tx_call op (fun s : fs cbctx => full_add_input s (if_box_id f) (if_frames_count f) (if_ext_len f)))
         (fun c : p2pk =>
          bind (tx_call c full_set_input_callback)
            (fun c0 : p2pk =>
             match amounts_add_input (op_amounts c0) (if_value f) with
             | (SW_OK, a) => Ok (mk_p2pk OP_INPUTS_STARTED (op_key c0) (op_path c0) (op_hash c0) (op_network c0) a (op_union_of c0))
             | (s, _) => Fail s
             end)) = Ok op1).
    { destruct (op_state_of op); try discriminate; exact H1. }
    clear H1. rename H1' into H1.
    apply bind_ok in H1 as (opa & Ha1 & H1). apply bind_ok in H1 as (opb & Hb1 & H1).
    apply tx_call_ok in Ha1 as (t & r & s1 & Ht & Hc & Hr & ->).
    destruct (op_tx_fs _ _ _ _ _ _ T Ht) as [Hfs Hinfo]. rewrite Hfs in Hc. clear Hfs.
    assert (Eoi : tx_output t = None) by (unfold last_info in Hinfo; rewrite Ho in Hinfo; exact Hinfo).
    rewrite Eoi in Hc.
    unfold full_add_input, fs_of in Hc. cbn [fs_full full_of fl_state fl_union fl_inputs_count fs_hash fs_cb] in Hc.
    destruct (phase_of d h) eqn:Eph; try (bad Hc).
    assert (Ht' : tokens_in d h = true /\ inputs_in d h = false).
    { unfold phase_of in Eph. destruct (tokens_in d h); [|discriminate]. destruct (inputs_in d h); [|auto].
      cbn in Eph. destruct (data_in d h); [|discriminate]. cbn in Eph. destruct (outputs_in d h); discriminate. }
    destruct Ht' as [Htok Hin].
    assert (Hd : sx_data d = []).
    { destruct (sx_data d) eqn:X; [reflexivity|]. exfalso. assert (sx_data d <> []) as Y by congruence.
      apply (w_data_inputs _ _ _ W) in Y. congruence. }
    assert (Cp : Forall (fun x => input_complete x = true) (sx_inputs d)).
    { destruct (snoc_cases _ (sx_inputs d)) as [->|(pre & i & Ei)]; [constructor|].
      rewrite (union_inputs E d h pre i Ho Ei) in Hc. rewrite Ei. apply Forall_snoc. split; [apply (w_in_last _ _ _ W _ _ Ei)|].
      unfold in_of in Hc. cbn [in_state] in Hc. unfold input_complete. fold (frames_in i).
      destruct (frames_in i); [|bad Hc]. cbn [negb] in Hc.
      destruct (blen (si_ext i) =? si_ext_len i); [reflexivity|bad Hc]. }
    assert (Dn : done_inputs d = blen (sx_inputs d)) by (unfold done_inputs; apply count_all; assumption).
    assert (Hlt : blen (sx_inputs d) < sh_inputs h).
    { pose proof (w_in_le _ _ _ W). unfold inputs_in in Hin. apply N.eqb_neq in Hin. lia. }
    assert (Hu2 : exists c0 b0, union_of E d h = FU_INPUT c0 b0 /\ in_state c0 = IN_FINISHED).
    { destruct (snoc_cases _ (sx_inputs d)) as [Ei|(pre & i & Ei)].
      - exists input_finished_ctx, false. split; [|reflexivity]. unfold union_of. rewrite Ho, Ei, Htok. reflexivity.
      - exists (in_of i), true. split; [apply (union_inputs E d h pre i); assumption|].
        rewrite Ei in Cp. apply Forall_snoc in Cp as [_ Ci]. unfold input_complete in Ci. apply andb_true_iff in Ci as [C1 C2].
        unfold in_of, frames_in. rewrite C1, C2. reflexivity. }
    destruct Hu2 as (c0 & b0 & Hu2 & Hf2). rewrite Hu2, Hf2 in Hc.
    rewrite Dn in Hc. replace (sh_inputs h - blen (sx_inputs d) =? 0) with false in Hc by (symmetry; apply N.eqb_neq; lia).
    unfold input_init in Hc. destruct ((if_ext_len f =? 1) || (MAX_TX_DATA_PART_LEN <? if_ext_len f)) eqn:Eext.
    { cbn [res_pass] in Hc. bad Hc. }
    apply orb_false_iff in Eext as [Eext1 Eext2]. unfold MAX_TX_DATA_PART_LEN in Eext2.
    cbn [res_pass] in Hc. unfold fs_with_full, full_set_union in Hc.
    cbn [fs_full full_of fl_state fl_union fl_inputs_count fl_data_inputs_count fl_outputs_count fl_distinct fs_hash fs_cb] in Hc.
    injection Hc as <- <-.
    apply tx_call_ok in Hb1 as (t2 & r2 & s2 & Ht2 & Hc2 & Hr2 & ->).
    cbn [op_put op_union_of] in Ht2. injection Ht2 as <-.
    unfold full_set_input_callback, op_fs in Hc2.
    unfold fs_with_full, full_set_union in Hc2.
    cbn [op_put tx_full tx_output op_hash op_amounts fs_full fs_hash fs_cb fl_state fl_union fl_inputs_count fl_data_inputs_count fl_outputs_count fl_distinct fst snd] in Hc2.
    rewrite Eph in Hc2. cbv iota in Hc2. injection Hc2 as <- <-.
    cbn [op_put op_amounts fs_cb fst] in H1. pose proof Ha as [A1 A2 A3 A4 A5].
    destruct (sums_no_outputs d Ho) as [Z1 Z2]. rewrite Z1, Z2 in A2.
    destruct (amounts_add_input (op_amounts op) (if_value f)) as [sw1 a1] eqn:Eam.
    destruct sw1; try discriminate.
    apply add_input_ok in Eam; [|lia|assumption]. destruct Eam as [Hsum ->].
    injection H1 as <-.
    unfold p2pk_add_input_tokens in H2. cbn [op_state_of] in H2.
    apply tx_call_ok in H2 as (t3 & r3 & s3 & Ht3 & Hc3 & Hr3 & ->).
    cbn [op_put op_union_of] in Ht3. injection Ht3 as <-.
    unfold op_fs in Hc3.
    cbn [op_put tx_full tx_output op_hash op_amounts fs_full fs_hash fs_cb fst snd] in Hc3.
    rewrite Hd, blen_nil, N.sub_0_r in Hc3. unfold done_outputs in Hc3. rewrite Ho, count_nil, N.sub_0_r in Hc3.
    unfold tx_bytes in Hc3. rewrite Hin, app_nil_r in Hc3. rewrite ?Dn in Hc3.
    set (i := mk_si (if_box_id f) (if_value f) (if_frames_count f) [] (if_ext_len f) []).
    set (d' := on_inputs (fun _ => sx_inputs d ++ [add_frame i toks]) d).
    assert (Eit : input_tokens d' = input_tokens d ++ toks).
    { unfold d'. rewrite input_tokens_snoc. reflexivity. }
    destruct (frame_step E s d h (sx_inputs d) i toks
       (am_set_value (op_amounts op) (am_value (op_amounts op) + if_value f), None) (if_index f) (if_tokens f) (if_box_id f) r3 s3 (balance d))
       as (_ & Eidx & Hidx & Hen & Hto & W' & c' & -> & Q1 & Q2 & Q3 & Q4 & Q5); try assumption; try reflexivity.
    + cbn. lia.
    + cbn. lia.
    + constructor.
    + apply W.
    + cbn [fst]. destruct A5. constructor; assumption.
    + intro x. rewrite balance_inputs by assumption. lia.
    + intros _. cbn [fst am_table am_set_value]. rewrite A4. unfold table_of. fold d'. rewrite Eit, map_app, fold_left_app. reflexivity.
    + fold d' in W', Q4 |- *.
      pose proof (parse_input_frame_ok _ _ _ _ Hok Hmax Hp Hen) as F.
      assert (Ed : describe_cmd d 0x12 data = d').
      { change (describe_cmd d 0x12 data) with
          (if num 33 1 data =? 0 then
            on_inputs (fun l => l ++ [mk_si (slice 0 32 data) (num 34 8 data) (num 32 1 data) [frame_tokens data]
                                        (num (43 + 40 * frame_ntokens data + 16) 4 data) []]) d
           else on_inputs (upd_last (fun i => mk_si (si_id i) (si_value i) (si_count i)
                                               (si_frames i ++ [frame_tokens data]) (si_ext_len i) (si_ext i))) d).
        rewrite <- (fo_index _ _ _ _ F), E0. change (0 =? 0) with true. cbv iota.
        unfold d', on_inputs, add_frame, i, toks, frame_tokens. cbn [si_id si_value si_count si_frames si_ext_len si_ext app].
        rewrite <- (fo_id _ _ _ _ F), <- (fo_count _ _ _ _ F), <- (fo_value _ _ _ _ F), <- (fo_ext _ _ _ _ F E0), <- (fo_tokens _ _ _ _ F).
        reflexivity. }
      rewrite Ed. split; [assumption|].
      assert (Ho' : sx_outputs d' = []) by exact Ho.
      destruct (sums_no_outputs d' Ho') as [Z1' Z2'].
      assert (Etot : total_in d' = total_in d + if_value f).
      { rewrite (total_in_snoc d' (sx_inputs d) (add_frame i toks)) by reflexivity. reflexivity. }
      split; [|].
      * split; [exact Hfix|]. split.
        { cbn [op_put op_state_of]. unfold op_phase. rewrite Ho'. cbn [d' on_inputs sx_inputs].
          destruct (sx_inputs d); reflexivity. }
        split; [reflexivity|]. split.
        { cbn [op_put op_amounts fs_cb fs_of]. cbn [fst am_fee am_set_value am_value] in Q2, Q3.
          constructor.
          - rewrite Q2, A1, Z1, Z1'. reflexivity.
          - rewrite Q3, Z1', Z2', Etot. lia.
          - rewrite Etot. lia.
          - assumption.
          - eapply am_rel_ext; [|exact Q5]. intro x. cbv beta.
            rewrite !balance_inputs by assumption. rewrite Eit, amount_of_app. lia. }
        exists (snd c'). split.
        { unfold last_info. rewrite Ho'. exact Q1. }
        cbn [op_put op_union_of fs_of fs_full fs_cb tx_last_approved]. do 2 f_equal.
        rewrite Hu in Ht. injection Ht as <-. rewrite Ho'. cbn. rewrite Ho. reflexivity.
      * exists (sx_inputs d), (add_frame i toks), []. split; [reflexivity|].
        split. { unfold add_frame, i, toks, frame_tokens. cbn [si_frames app]. rewrite <- (fo_tokens _ _ _ _ F). reflexivity. }
        split; [apply F|]. split; [rewrite <- (fo_index _ _ _ _ F); exact E0|].
        split. { rewrite <- (fo_index _ _ _ _ F). exact Hidx. }
        split; [intros _; split; apply F|]. split; [apply F|]. split; apply F.
  - (* a further frame *)
    injection H1 as <-. unfold p2pk_add_input_tokens in H2.
    destruct (op_state_of op) eqn:Es; try discriminate.
    symmetry in Hst. apply op_phase_inputs in Hst as [Hne Ho].
    destruct (snoc_cases _ (sx_inputs d)) as [Ei|(pre & i & Ei)]; [contradiction|].
    apply tx_call_ok in H2 as (t & r & s1 & Ht & Hc & Hr & ->).
    destruct (op_tx_fs _ _ _ _ _ _ T Ht) as [Hfs Hinfo]. rewrite Hfs in Hc. clear Hfs.
    assert (Eoi : tx_output t = None) by (unfold last_info in Hinfo; rewrite Ho in Hinfo; exact Hinfo).
    rewrite Eoi in Hc.
    assert (Eph : phase_of d h = FL_INPUTS_STARTED).
    { unfold full_add_input_tokens, fs_of in Hc. cbn [fs_full full_of fl_state] in Hc.
      destruct (phase_of d h) eqn:Eph; try (bad Hc). reflexivity. }
    assert (Ht' : tokens_in d h = true /\ inputs_in d h = false).
    { unfold phase_of in Eph. destruct (tokens_in d h); [|discriminate]. destruct (inputs_in d h); [|auto].
      cbn in Eph. destruct (data_in d h); [|discriminate]. cbn in Eph. destruct (outputs_in d h); discriminate. }
    destruct Ht' as [Htok Hin].
    assert (Hd : sx_data d = []).
    { destruct (sx_data d) eqn:X; [reflexivity|]. exfalso. assert (sx_data d <> []) as Y by congruence.
      apply (w_data_inputs _ _ _ W) in Y. congruence. }
    pose proof (w_in_wf _ _ _ W) as Fw. rewrite Ei in Fw. apply Forall_snoc in Fw as [Fp Wi].
    pose proof (w_in_last _ _ _ W _ _ Ei) as Cp.
    assert (Hfi : frames_in i = false).
    { unfold full_add_input_tokens, fs_of in Hc. cbn [fs_full full_of fl_state] in Hc. rewrite Eph in Hc.
      unfold on_input in Hc. cbn [fs_full full_of fl_union] in Hc. rewrite (union_inputs E d h pre i Ho Ei) in Hc.
      unfold input_add_tokens in Hc. cbn [is_in] in Hc. unfold in_of in Hc at 1. cbn [in_state] in Hc.
      destruct (frames_in i); [|reflexivity]. cbn [negb] in Hc.
      destruct (blen (si_ext i) =? si_ext_len i); bad Hc. }
    assert (Hic : input_complete i = false).
    { unfold input_complete. fold (frames_in i). rewrite Hfi. reflexivity. }
    assert (Dn := done_snoc d pre i Ei Cp). rewrite Hic, N.add_0_r in Dn.
    assert (Eext := iw_ext0 _ Wi Hfi).
    assert (Hlt : blen pre < sh_inputs h).
    { pose proof (w_in_le _ _ _ W) as X. rewrite Ei, blen_app in X. change (blen [i]) with 1 in X. lia. }
    set (d' := on_inputs (fun _ => pre ++ [add_frame i toks]) d).
    assert (Eit : input_tokens d' = input_tokens d ++ toks).
    { unfold d'. rewrite input_tokens_snoc. unfold input_tokens. rewrite Ei, map_app, concat_app. cbn [map concat].
      rewrite app_nil_r, app_assoc. reflexivity. }
    pose proof Ha as [A1 A2 A3 A4 A5].
    assert (Efs : fs_of E s d h (op_amounts op, None) =
      mk_fs (mk_full FL_INPUTS_STARTED (sh_inputs h - blen pre) (sh_data h) (sh_outputs h) (sh_tokens h)
              (FU_INPUT (mk_input IN_FRAMES_STARTED (si_id i) (si_count i) (blen (si_frames i)) (si_ext_len i)) true))
           (ss_prefix s ++ vlq (sh_inputs h) ++ concat (map in_bytes pre)) (op_amounts op, None)).
    { unfold fs_of, full_of. rewrite Eph, Dn, Hd, blen_nil, N.sub_0_r. unfold done_outputs. rewrite Ho, count_nil, N.sub_0_r.
      rewrite (union_inputs E d h pre i Ho Ei). unfold in_of. rewrite Hfi. cbn [negb]. rewrite Eext, blen_nil, N.sub_0_r.
      unfold tx_bytes. rewrite Hin, app_nil_r, Ei, map_app, concat_app. cbn [map concat].
      assert (Eb : in_bytes i = []) by (unfold in_bytes; rewrite Hfi; reflexivity). rewrite Eb. cbn [app]. rewrite app_nil_r. reflexivity. }
    rewrite Efs in Hc.
    destruct (frame_step E s d h pre i toks (op_amounts op, None) (if_index f) (if_tokens f) (if_box_id f) r s1 (balance d))
       as (Eid & Eidx & Hidx & Hen & Hto & W' & c' & -> & Q1 & Q2 & Q3 & Q4 & Q5); try assumption; try reflexivity; try apply Wi.
    + intro x. rewrite balance_inputs by assumption. lia.
    + intros _. cbn [fst]. rewrite A4. unfold table_of. fold d'. rewrite Eit, map_app, fold_left_app. reflexivity.
    + fold d' in W', Q4 |- *.
      pose proof (parse_input_frame_ok _ _ _ _ Hok Hmax Hp Hen) as F.
      assert (Ed : describe_cmd d 0x12 data = d').
      { change (describe_cmd d 0x12 data) with
          (if num 33 1 data =? 0 then
            on_inputs (fun l => l ++ [mk_si (slice 0 32 data) (num 34 8 data) (num 32 1 data) [frame_tokens data]
                                        (num (43 + 40 * frame_ntokens data + 16) 4 data) []]) d
           else on_inputs (upd_last (fun i => mk_si (si_id i) (si_value i) (si_count i)
                                               (si_frames i ++ [frame_tokens data]) (si_ext_len i) (si_ext i))) d).
        rewrite <- (fo_index _ _ _ _ F), (proj2 (N.eqb_neq _ _) E0).
        unfold d', on_inputs. rewrite Ei, upd_last_snoc. unfold add_frame, toks, frame_tokens.
        rewrite <- (fo_tokens _ _ _ _ F). reflexivity. }
      rewrite Ed. split; [assumption|].
      assert (Ho' : sx_outputs d' = []) by exact Ho.
      assert (Etot : total_in d' = total_in d).
      { rewrite (total_in_snoc d' pre (add_frame i toks)) by reflexivity. rewrite (total_in_snoc d pre i Ei). reflexivity. }
      split.
      * apply (op_tx_put E s d h op d').
        -- assumption.
        -- unfold op_phase. rewrite Ho', Ho. cbn [d' on_inputs sx_inputs]. rewrite Ei. destruct pre; reflexivity.
        -- cbn [fst] in Q2, Q3. constructor.
           ++ rewrite Q2, A1. reflexivity.
           ++ rewrite Q3, Etot. exact A2.
           ++ rewrite Etot. exact A3.
           ++ assumption.
           ++ eapply am_rel_ext; [|exact Q5]. intro x. cbv beta.
              rewrite !balance_inputs by assumption. rewrite Eit, amount_of_app. lia.
        -- unfold last_info. rewrite Ho'. exact Q1.
        -- reflexivity.
        -- exact Ht.
      * exists pre, (add_frame i toks), (si_frames i). split; [reflexivity|].
        split. { unfold add_frame, toks, frame_tokens. cbn [si_frames]. rewrite <- (fo_tokens _ _ _ _ F). reflexivity. }
        split; [rewrite <- (fo_id _ _ _ _ F); exact Eid|]. split; [rewrite <- (fo_index _ _ _ _ F); exact Eidx|].
        split. { rewrite <- (fo_index _ _ _ _ F). exact Hidx. }
        split. { intros X. exfalso. pose proof (iw_frames _ Wi) as [Y _]. rewrite X, blen_nil in Y. lia. }
        split; [apply F|]. split; apply F.
Qed.
