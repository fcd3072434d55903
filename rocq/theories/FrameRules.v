(** Frames of the inputs of open sessions. *)
From Verif Require Import Lib Env Bip32 Address ErgoTree Schnorr TxTable TxBox TxFull Amounts OutputInfo UiFlow P2pkOp App
  SpecVlq SpecText SpecTree SpecTrace SpecTx SpecApdu SpecAmounts SpecScreen SpecPages SpecDispatch SpecRequest SpecSign SpecRules
  AmountProofs TreeProofs Moves SignInv SignInput SignOutput SignRest SignShow
  TraceSign TraceAttest AttestProofs TraceScreen PageProofs TraceShow DispatchProofs FlowProofs RequestProofs SessionProofs SignedProofs RulesProofs.

#[local] Arguments N.eqb : simpl never.
#[local] Arguments N.ltb : simpl never.
#[local] Arguments N.leb : simpl never.
#[local] Arguments N.sub : simpl never.
#[local] Arguments blen : simpl never.
#[local] Arguments num : simpl never.
#[local] Arguments slice : simpl never.

Lemma pieces_snoc : forall ins sub body x, pieces ins sub (body ++ [x]) =
  pieces ins sub body ++ match continuation ins x with Some (s, data) => if s =? sub then [data] else [] | None => [] end.
Proof. intros. unfold pieces. rewrite flat_map_app. cbn [flat_map]. rewrite app_nil_r. reflexivity. Qed.
Lemma other_inputs : forall d sub data, sub <> 0x12 -> sub <> 0x13 -> sx_inputs (describe_cmd d sub data) = sx_inputs d.
Proof.
  intros d sub data H1 H2. destruct sub as [|p]; [reflexivity|].
  do 5 (destruct p as [p|p|]; try reflexivity); congruence.
Qed.
Lemma flag_inputs : forall b f d, sx_inputs (if b : bool then on_outputs f d else d) = sx_inputs d.
Proof. intros [] f d; reflexivity. Qed.
Lemma concat_snoc : forall A (l : list (list A)) x, concat (l ++ [x]) = concat l ++ x.
Proof. intros. rewrite concat_app. cbn. rewrite app_nil_r. reflexivity. Qed.

Lemma framed_holds : forall E key tr0 start sid body st, env_ok E -> history E key (tr0 ++ start :: body) st ->
  is_start INS_SIGN start = true -> Forall (fun x => is_start INS_SIGN x = false) body -> Forall (keeps INS_SIGN sid) body ->
  exists groups, inputs_framed E key body groups.
Proof.
  intros E key tr0 start sid body st Henv H Hst. revert st H. induction body as [|x body IH] using rev_ind; intros st H F K.
  { exists []. split; [reflexivity|constructor]. }
  apply Forall_app in F as [F _]. apply Forall_app in K as [K Kx]. inversion Kx as [|? ? Kx' _]; subst. clear Kx.
  rewrite app_comm_cons, app_assoc in H. destruct (history_prefix _ _ _ _ _ H) as [st0 H0].
  destruct (IH _ H0 F K) as (groups & G1 & G2). pose proof (session_after _ tr0 _ _ Hst F) as Hses.
  unfold inputs_framed. rewrite description_snoc, pieces_snoc. set (d := description body) in *.
  destruct (continuation INS_SIGN x) as [[sub data]|] eqn:C.
  2: { exists groups. rewrite app_nil_r. split; [exact G1|]. unfold describe. rewrite C. rewrite flag_inputs. exact G2. }
  destruct x as [e outs]. pose proof C as C'. apply continuation_form in C' as (p1 & p2 & data' & r & -> & Hp & Ha & K').
  injection K' as <- <-.
  destruct (accepted_exec _ _ _ _ _ _ _ _ _ Henv H Hp Ha) as (g & start' & body' & s & Hev & X1 & _ & _ & _ & S & op & a & X & Y).
  rewrite Hses in X1. injection X1 as <- <-. fold d in S.
  destruct Hev as (_ & _ & _ & _ & Hb & Hl & _). assert (Hl' : blen data <= 255) by (unfold blen; lia).
  unfold describe. rewrite C, flag_inputs.
  destruct (N.eq_dec sub 0x12) as [->|N12].
  - assert (Aa : a <> A_CONFIRM). { cbv [sign_exec] in X. congruence. }
    destruct (exec_ok E s key d (sg_op g) 0x12 data op a Henv Hb Hl' S X Aa) as (Fr & _). specialize (Fr eq_refl).
    destruct Fr as (pre & i & fr & Fi & Ff & Fid & Fx & Fc & F0 & Fl & Fn & Ft).
    assert (At : attested_data E key data) by (split; [exact Fl|]; split; [exact Fn|exact Ft]).
    change (18 =? 18) with true. cbv iota.
    cbn [describe_cmd] in Fi |- *. destruct (num 33 1 data =? 0) eqn:Z.
    + apply N.eqb_eq in Z. exists (groups ++ [[data]]). split; [rewrite concat_snoc, G1; reflexivity|].
      cbn [on_inputs sx_inputs] in Fi |- *. apply Forall2_app; [exact G2|]. constructor; [|constructor].
      apply snoc_inj in Fi as [_ Ei]. assert (fr = []). { rewrite Z in Fx. destruct fr; [reflexivity|unfold blen in Fx; cbn in Fx; lia]. } subst fr.
      destruct (F0 eq_refl) as [C1 C2].
      split; [reflexivity|]. split; [constructor; [split; [exact At|reflexivity]|constructor]|].
      split. { intros [|k] dd Hd; [injection Hd as <-; exact Z|destruct k; discriminate Hd]. }
      split. { exists data. split; [reflexivity|]. split; reflexivity. }
      rewrite <- Ei in Fc. cbn [si_count] in Fc |- *. unfold blen. cbn [length]. lia.
    + apply N.eqb_neq in Z. cbn [on_inputs sx_inputs] in Fi |- *.
      destruct (snoc_cases _ (sx_inputs d)) as [En|(pre0 & i0 & En)]; [rewrite En in Fi; destruct pre; discriminate Fi|].
      rewrite En, upd_last_snoc in Fi |- *. rewrite En in G2. apply snoc_inj in Fi as [-> Ei]. subst i. cbn [si_frames si_id si_count si_value] in *.
      apply snoc_inj in Ff as [Ef _].
      apply Forall2_app_inv_l in G2 as (gs & gl & Ga & Gb & ->). inversion Gb as [|? gg ? ? Gi Gn]; subst. inversion Gn; subst. clear Gb Gn.
      destruct Gi as (I1 & I2 & I3 & I4 & I5).
      exists (gs ++ [gg ++ [data]]). split.
      { rewrite concat_snoc, app_assoc, <- concat_snoc. rewrite G1. reflexivity. }
      apply Forall2_app; [exact Ga|]. constructor; [|constructor].
      assert (Lg : blen gg = num 33 1 data). { rewrite Fx, I1. unfold blen. rewrite map_length. reflexivity. }
      split; [cbn [si_frames]; rewrite I1, map_app; reflexivity|]. cbn [si_id si_count si_value].
      split. { apply Forall_app. split; [exact I2|]. constructor; [split; [exact At|congruence]|constructor]. }
      split. { intros k dd Hd. destruct (Nat.lt_ge_cases k (length gg)) as [Hk|Hk].
        - rewrite nth_error_app1 in Hd by exact Hk. exact (I3 _ _ Hd).
        - rewrite nth_error_app2 in Hd by exact Hk. destruct (k - length gg)%nat as [|q] eqn:Q; [|destruct q; discriminate Hd].
          injection Hd as <-. unfold blen in Lg. lia. }
      split. { destruct I4 as (d0 & D1 & D2). exists d0. split; [|exact D2]. rewrite nth_error_app1; [exact D1|]. apply nth_error_Some. congruence. }
      rewrite blen_app. unfold blen in *. cbn [length]. lia.
  - apply N.eqb_neq in N12. rewrite N12, app_nil_r. apply N.eqb_neq in N12.
    destruct (N.eq_dec sub 0x13) as [->|N13].
    + exists groups. split; [exact G1|]. cbn [describe_cmd on_inputs sx_inputs].
      destruct (snoc_cases _ (sx_inputs d)) as [En|(pre0 & i0 & En)]; rewrite En in *; [exact G2|]. rewrite upd_last_snoc.
      apply Forall2_app_inv_l in G2 as (gs & gl & Ga & Gb & ->). apply Forall2_app; [exact Ga|]. inversion Gb as [|? gg ? ? Gi Gn]; subst. inversion Gn; subst.
      constructor; [|constructor]. exact Gi.
    + exists groups. split; [exact G1|]. rewrite other_inputs by assumption. exact G2.
Qed.

(** At the signature every input is there with all its frames. *)
Lemma signed_frames : forall E key tr o st sig, env_ok E -> history E key (tr ++ [o]) st -> signature o = Some sig ->
  exists start body groups, session_of INS_SIGN tr = Some (start, body) /\ inputs_framed E key body groups /\
    Forall2 (fun i frames => input_complete i = true /\ blen frames = si_count i) (sx_inputs (description body)) groups.
Proof.
  intros E key tr o st sig Henv H Sg. destruct (signed _ _ _ _ _ _ Henv H Sg) as (_ & _ & _ & start & body & sid & s & h & sk & ch & O & F & _).
  destruct (history_prefix _ _ _ _ _ H) as [st0 H0]. destruct (session_suffix _ _ _ _ O) as (tr0 & Et & S1 & S2). subst tr.
  destruct (framed_holds _ _ _ _ _ _ _ Henv H0 S1 S2 (fs_keeps _ _ _ _ _ _ F)) as (groups & G1 & G2).
  exists start, body, groups. split; [exact O|]. split; [split; assumption|].
  pose proof (ft_inputs _ _ _ (finished_counts _ _ _ (fs_wf _ _ _ _ _ _ F) (fs_phase _ _ _ _ _ _ F))) as C.
  revert C. clear - G2. induction G2 as [|i gg l gs Hi Hl IH]; intro C; constructor; inversion C; subst; [|apply IH; assumption].
  split; [assumption|]. destruct Hi as (I1 & _). match goal with K : input_complete i = true |- _ => unfold input_complete in K; apply andb_true_iff in K as [K _]; apply N.eqb_eq in K; rewrite <- K, I1 end.
  unfold blen. rewrite map_length. reflexivity.
Qed.
(** In an open session. *)
Lemma open_frames : forall E key tr st sid start body, env_ok E -> history E key tr st -> open_session INS_SIGN sid tr start body ->
  exists groups, inputs_framed E key body groups.
Proof.
  intros E key tr st sid start body Henv H (O & K & _). destruct (session_suffix _ _ _ _ O) as (tr0 & -> & S1 & S2). eapply framed_holds; eauto.
Qed.
(** The only frame accepted: the first of a new input, all others complete; or the next
    one of the last input. *)
Lemma next_frame : forall E key tr st c data, env_ok E -> history E key (tr ++ [c]) st -> continuation INS_SIGN c = Some (0x12, data) ->
  exists start body, session_of INS_SIGN tr = Some (start, body) /\ attested_data E key data /\
    frame_in_order (sx_inputs (description body)) data.
Proof.
  intros E key tr st [e outs] data Henv H C. pose proof C as C'. apply continuation_form in C' as (p1 & p2 & data' & r & -> & Hp & Ha & K').
  injection K' as <- <-.
  destruct (accepted_exec _ _ _ _ _ _ _ _ _ Henv H Hp Ha) as (g & start & body & s & Hev & X1 & _ & _ & _ & S & op & a & X & Y).
  exists start, body. split; [exact X1|]. destruct Hev as (_ & _ & _ & _ & Hb & Hl & _). assert (Hl' : blen data <= 255) by (unfold blen; lia).
  assert (Aa : a = A_OK). { cbv [sign_exec] in X. congruence. }
  destruct (exec_ok E s key (description body) (sg_op g) 0x12 data op a Henv Hb Hl' S X ltac:(subst a; discriminate)) as (Fr & Fs & _).
  specialize (Fr eq_refl). specialize (Fs Aa). destruct Fr as (pre & i & fr & Fi & Ff & Fid & Fx & Fc & F0 & Fl & Fn & Ft).
  split; [split; [exact Fl|]; split; [exact Fn|exact Ft]|]. cbn [describe_cmd] in Fi, Fs. destruct (num 33 1 data =? 0) eqn:Z.
  - left. apply N.eqb_eq in Z. assert (fr = []). { rewrite Z in Fx. destruct fr; [reflexivity|unfold blen in Fx; cbn in Fx; lia]. } subst fr.
    destruct (F0 eq_refl) as [C1 C2]. split; [exact Z|]. split; [lia|].
    destruct Fs as [[Fs _]|(h & W & _)]; [apply (f_equal sx_inputs) in Fs; cbn [on_inputs sx_inputs s_empty] in Fs; destruct (sx_inputs (description body)); discriminate Fs|].
    eapply (w_in_last _ _ _ W). cbn [on_inputs sx_inputs]. reflexivity.
  - right. apply N.eqb_neq in Z. cbn [on_inputs sx_inputs] in Fi.
    destruct (snoc_cases _ (sx_inputs (description body))) as [En|(pre0 & i0 & En)]; [rewrite En in Fi; destruct pre; discriminate Fi|].
    rewrite En, upd_last_snoc in Fi. apply snoc_inj in Fi as [-> Ei]. subst i. cbn [si_frames si_id si_count si_value] in *.
    apply snoc_inj in Ff as [Ef _]. exists pre, i0. split; [exact En|]. split; [congruence|]. split; [lia|]. split; congruence.
Qed.
Lemma wrong_frame : forall E key tr st p2 data r st' outs start body, env_ok E -> history E key tr st ->
  event_ok (Apdu CLA INS_SIGN 0x12 p2 data r) -> step E st (Apdu CLA INS_SIGN 0x12 p2 data r) = (st', outs) ->
  session_of INS_SIGN tr = Some (start, body) -> ~ (attested_data E key data /\ frame_in_order (sx_inputs (description body)) data) ->
  exists s, outs = [OResp [] s] /\ s <> SW_OK /\ (st' = st /\ (s = SW_BUSY \/ s = SW_WRONG_P1P2) \/ cleared st').
Proof.
  intros E key tr st p2 data r st' outs start body Henv H Hev Hs Hses Hn.
  destruct (not_accepted _ _ _ _ _ _ _ _ _ _ Henv H Hev Hs ltac:(discriminate)) as [H' R].
  destruct (accepted outs) eqn:Ha; [|apply R; reflexivity]. exfalso. apply Hn.
  assert (C : continuation INS_SIGN (Apdu CLA INS_SIGN 0x12 p2 data r, outs) = Some (0x12, data)) by (cbn; rewrite Ha; reflexivity).
  destruct (next_frame _ _ _ _ _ _ Henv H' C) as (start' & body' & S & A & B). rewrite Hses in S. injection S as <- <-. auto.
Qed.

(** ** Where frames come from *)

Lemma slice_prefix : forall off n (a b : bytes), (off + n <= length a)%nat -> slice off n (a ++ b) = slice off n a.
Proof. intros off n a b H. unfold slice. rewrite skipn_app, firstn_app. rewrite skipn_length. replace (n - (length a - off))%nat with 0%nat by lia. rewrite firstn_O, app_nil_r. reflexivity. Qed.
Lemma num_prefix : forall off n (a b : bytes), (off + n <= length a)%nat -> num off n (a ++ b) = num off n a.
Proof. intros. unfold num. rewrite slice_prefix by assumption. reflexivity. Qed.
Lemma frame_split : forall data, (43 + 40 * frame_ntokens data + 16 <= length data)%nat ->
  data = (frame_body data ++ frame_tag data) ++ skipn (59 + 40 * frame_ntokens data) data /\
  length (frame_body data ++ frame_tag data) = (59 + 40 * frame_ntokens data)%nat.
Proof.
  intros data H. set (k := frame_ntokens data) in *. unfold frame_body, frame_tag, slice. fold k. cbn [skipn].
  set (n := (43 + 40 * k)%nat) in *. replace (59 + 40 * k)%nat with (n + 16)%nat by (unfold n; lia). split.
  - rewrite <- app_assoc. rewrite <- (firstn_skipn n data) at 1. f_equal.
    rewrite <- (firstn_skipn 16 (skipn n data)) at 1. f_equal. rewrite skipn_S. reflexivity.
  - rewrite app_length, !firstn_length, skipn_length. lia.
Qed.
Lemma frame_like : forall f rest, (59 + 40 * frame_ntokens f <= length f)%nat ->
  slice 0 32 (f ++ rest) = slice 0 32 f /\ num 32 1 (f ++ rest) = num 32 1 f /\ num 33 1 (f ++ rest) = num 33 1 f /\
  num 34 8 (f ++ rest) = num 34 8 f /\ frame_tokens (f ++ rest) = frame_tokens f.
Proof.
  intros f rest H. rewrite slice_prefix, !num_prefix by lia. do 4 (split; [reflexivity|]).
  unfold frame_tokens. assert (K : frame_ntokens (f ++ rest) = frame_ntokens f) by (unfold frame_ntokens; rewrite num_prefix by lia; reflexivity).
  rewrite K, slice_prefix by lia. reflexivity.
Qed.
Lemma size_frame : forall q e (k : nat), (k <= 4)%nat -> In (59 + 40 * N.of_nat k) (answer_sizes q e) ->
  exists cla p2 data r, e = Apdu cla INS_ATTEST 5 p2 data r.
Proof.
  intros q e k Hk H. assert (Hb : In k [0;1;2;3;4]%nat) by (cbn [In]; lia).
  assert (Hn : In (59 + 40 * N.of_nat k) [59;99;139;179;219]) by (cbn [In] in Hb; repeat (destruct Hb as [<-|Hb]; [cbn; tauto|]); destruct Hb).
  set (n := 59 + 40 * N.of_nat k) in *. clearbody n. clear Hb Hk k. destruct e; cbn [answer_sizes] in H; try (destruct H; fail).
  - destruct ((ins =? INS_VERSION) || (ins =? INS_NAME)). { exfalso. cbn [In] in *. intuition lia. }
    destruct (ins =? INS_KEY). { exfalso. cbn [In] in *. intuition lia. }
    destruct (ins =? INS_ADDRESS). { exfalso. cbn [In] in *. intuition lia. }
    destruct (ins =? INS_ATTEST) eqn:Ei.
    + apply N.eqb_eq in Ei. subst ins. destruct (p1 =? 1). { exfalso. cbn [In] in *. intuition lia. }
      destruct (p1 =? 5) eqn:E5; [|exfalso; cbn [In] in *; intuition lia]. apply N.eqb_eq in E5. subst p1. eauto.
    + destruct (ins =? INS_SIGN); exfalso; cbn [In] in *; intuition lia.
  - exfalso. destruct q as [[[[[| | | | | | | |] []] f] pages]|]; try (destruct H; fail);
      repeat match type of H with context [if ?c then _ else _] => destruct c end; cbn [In] in *; intuition lia.
  - exfalso. destruct q as [[[[a []] f] pages]|]; try (destruct H; fail); cbn [In] in *; intuition lia.
Qed.
Lemma cla_ok : forall E st cla ins p1 p2 data r st' b, step E st (Apdu cla ins p1 p2 data r) = (st', [OResp b SW_OK]) -> cla = CLA.
Proof.
  intros E st cla ins p1 p2 data r st' b H. cbn [step] in H. unfold apdu_dispatcher in H. destruct (cla =? 0xE0) eqn:K; [apply N.eqb_eq; exact K|].
  cbn [negb] in H. discriminate H.
Qed.
Lemma history_at : forall E key tr1 o tr2 st, history E key (tr1 ++ o :: tr2) st -> exists st0, history E key (tr1 ++ [o]) st0.
Proof. intros E key tr1 o tr2 st H. change (o :: tr2) with ([o] ++ tr2) in H. rewrite app_assoc in H. eapply history_prefix. exact H. Qed.

(** A frame sized answer is an attested frame. *)
Lemma frame_source : forall E key tr st o data, env_ok E -> history E key tr st -> attested_data E key data -> In o tr ->
  In (OResp (frame_body data ++ frame_tag data) SW_OK) (snd o) ->
  exists b i, attested_box E key tr b /\ sb_wf b /\ frame_from E key data b i.
Proof.
  intros E key tr st [e outs] data Henv H (L1 & L2 & L3) Hin Ho. apply in_split in Hin as (tr1 & tr2 & ->).
  destruct (history_at _ _ _ _ _ _ H) as [st1 H1]. cbn [snd] in Ho. destruct (frame_split data L1) as [Ed Ll].
  set (f := frame_body data ++ frame_tag data) in *.
  destruct (answer_size _ _ _ _ _ _ f SW_OK Henv H1 Ho) as [_ A]. specialize (A eq_refl).
  assert (B : blen f = 59 + 40 * N.of_nat (frame_ntokens data)) by (unfold blen; lia). rewrite B in A.
  apply size_frame in A as (cla & p2 & dd & r & ->); [|exact L2].
  destruct (answers _ _ _ _ _ _ Henv H1) as [Hlen _]. assert (outs = [OResp f SW_OK]).
  { destruct outs as [|y [|z outs]]; [destruct Ho|destruct Ho as [->|[]]; reflexivity|cbn in Hlen; lia]. } subst outs.
  assert (cla = CLA). { pose proof H1 as H2. apply history_last in H2 as (s0 & _ & _ & _ & Hs & _). eapply cla_ok. exact Hs. } subst cla.
  destruct (frame_answer _ _ _ _ _ _ _ _ Henv H1) as (start & body & i & I1 & _ & _ & -> & Hi & Hc & W & Ef).
  exists (streamed_box start body), i. split.
  { exists tr1, (Apdu CLA INS_ATTEST 5 p2 [i] r, [OResp f SW_OK]), tr2, start, body, i. do 5 (split; [assumption || reflexivity|]). cbn [snd]. rewrite Ef. reflexivity. }
  split; [exact W|].
  destruct (frame_fields E key _ i Henv W (sb_wf_value _ W) Hi) as (F1 & F2 & F3 & F4 & F5 & F6 & F7 & F8).
  rewrite <- Ef in F1, F2, F3, F4, F5, F6, F7, F8.
  assert (Nt : frame_ntokens f = frame_ntokens data). { rewrite Ed. unfold frame_ntokens at 2. rewrite num_prefix by lia. reflexivity. }
  destruct (frame_like f (skipn (59 + 40 * frame_ntokens data) data)) as (P1 & P2 & P3 & P4 & P5); [lia|].
  rewrite <- Ed in P1, P2, P3, P4, P5. unfold frame_from. fold f. split; [exact Ef|]. do 5 (split; [congruence|]). congruence.
Qed.
Lemma authentic : forall E key tr st pre c post data, env_ok E -> history E key tr st -> no_forgery tr ->
  tr = pre ++ c :: post -> continuation INS_SIGN c = Some (0x12, data) ->
  exists b i, attested_box E key pre b /\ sb_wf b /\ frame_from E key data b i.
Proof.
  intros E key tr st pre c post data Henv H Hf -> C. destruct (Hf _ _ _ _ eq_refl C) as (o & Ho1 & Ho2).
  destruct (history_at _ _ _ _ _ _ H) as [st1 H1]. destruct (next_frame _ _ _ _ _ _ Henv H1 C) as (_ & _ & _ & A & _).
  destruct (history_prefix _ _ _ _ _ H1) as [st0 H0]. eapply frame_source; eauto.
Qed.
Lemma attested_more : forall E key tr tr' b, attested_box E key tr b -> attested_box E key (tr ++ tr') b.
Proof.
  intros E key tr tr' b (pre & o & post & start & body & i & -> & K). exists pre, o, (post ++ tr'), start, body, i.
  split; [rewrite <- app_assoc; reflexivity|exact K].
Qed.
Lemma pieces_in : forall ins sub body data, In data (pieces ins sub body) -> exists b1 c b2, body = b1 ++ c :: b2 /\ continuation ins c = Some (sub, data).
Proof.
  intros ins sub body data H. unfold pieces in H. apply in_flat_map in H as (c & Hc & Hd). apply in_split in Hc as (b1 & b2 & ->).
  exists b1, c, b2. split; [reflexivity|]. destruct (continuation ins c) as [[s d]|]; [|destruct Hd].
  destruct (s =? sub) eqn:E; [|destruct Hd]. apply N.eqb_eq in E. destruct Hd as [<-|[]]. subst. reflexivity.
Qed.
Lemma map_seq_ext : forall A B (f : A -> B) (h : nat -> B) l, (forall k x, nth_error l k = Some x -> f x = h k) -> map f l = map h (seq 0 (length l)).
Proof.
  intros A B f h l. revert h. induction l as [|x l IH]; intros h H; [reflexivity|]. cbn [length seq map]. f_equal; [exact (H 0%nat x eq_refl)|].
  rewrite <- seq_shift, map_map. apply IH. intros k y Hk. exact (H (S k) y Hk).
Qed.

(** The frames of every input of a signature were attested. *)
Lemma signed_sources : forall E key tr o st sig, env_ok E -> history E key (tr ++ [o]) st -> signature o = Some sig -> no_forgery tr ->
  exists start body groups, session_of INS_SIGN tr = Some (start, body) /\ inputs_framed E key body groups /\
    Forall2 (fun i frames => input_complete i = true /\ blen frames = si_count i /\
               Forall (fun data => exists b k, attested_box E key tr b /\ sb_wf b /\ frame_from E key data b k) frames)
            (sx_inputs (description body)) groups.
Proof.
  intros E key tr o st sig Henv H Sg Hf. destruct (signed_frames _ _ _ _ _ _ Henv H Sg) as (start & body & groups & O & (G1 & G2) & G3).
  exists start, body, groups. split; [exact O|]. split; [split; assumption|].
  destruct (history_prefix _ _ _ _ _ H) as [st0 H0]. destruct (session_suffix _ _ _ _ O) as (tr0 & Et & S1 & S2).
  assert (A : Forall (Forall (fun data => exists b k, attested_box E key tr b /\ sb_wf b /\ frame_from E key data b k)) groups).
  { apply Forall_forall. intros gg Hg. apply Forall_forall. intros data Hd.
    assert (Hp : In data (pieces INS_SIGN 0x12 body)) by (rewrite <- G1; apply in_concat; eauto).
    apply pieces_in in Hp as (b1 & c & b2 & -> & C).
    destruct (authentic E key tr st0 (tr0 ++ start :: b1) c b2 data Henv H0 Hf) as (b & k & A1 & A2 & A3).
    - rewrite Et, <- app_assoc. reflexivity.
    - exact C.
    - exists b, k. split; [|auto]. rewrite Et. replace (tr0 ++ start :: b1 ++ c :: b2) with ((tr0 ++ start :: b1) ++ c :: b2) by (rewrite <- app_assoc; reflexivity).
      apply attested_more. exact A1. }
  clear - G3 A. induction G3 as [|i gg l gs [Ha Hb] Hl IH]; constructor; inversion A; subst; auto.
Qed.
Lemma signed_values : forall E key tr o st sig, env_ok E -> history E key (tr ++ [o]) st -> signature o = Some sig -> no_forgery tr ->
  exists start body, session_of INS_SIGN tr = Some (start, body) /\
    forall i, In i (sx_inputs (description body)) -> exists b, attested_box E key tr b /\ si_id i = box_id E b /\ si_value i = sb_value b /\
      (ids_unambiguous E key tr -> concat (si_frames i) = sb_tokens b).
Proof.
  intros E key tr o st sig Henv H Sg Hf. destruct (signed_sources _ _ _ _ _ _ Henv H Sg Hf) as (start & body & groups & O & (_ & G2) & G3).
  exists start, body. split; [exact O|]. intros i Hi.
  assert (X : exists gg, input_frames E key i gg /\ blen gg = si_count i /\ Forall (fun data => exists b k, attested_box E key tr b /\ sb_wf b /\ frame_from E key data b k) gg).
  { revert Hi G3. clear - G2. induction G2 as [|j gg l gs Hj Hl IH]; intros Hi G3; [destruct Hi|]. inversion G3; subst.
    destruct Hi as [->|Hi]; [|apply IH; assumption]. exists gg. split; [exact Hj|]. match goal with K : _ /\ _ |- _ => destruct K as (_ & K1 & K2) end. auto. }
  destruct X as (gg & (I1 & I2 & I3 & (d0 & D1 & D2 & D3) & I5) & Lc & Src). rewrite Forall_forall in I2, Src.
  destruct (Src d0 (nth_error_In _ _ D1)) as (b & k0 & A1 & A2 & (B1 & B2 & B3 & B4 & B5 & B6 & B7)).
  destruct (I2 d0 (nth_error_In _ _ D1)) as [_ Hid].
  exists b. split; [exact A1|]. split; [congruence|]. split; [congruence|]. intro U.
  rewrite I1. rewrite <- (frames_lossless E key b Henv A2 (sb_wf_value _ A2)). f_equal.
  replace (N.to_nat (frame_total b)) with (length gg) by (unfold blen in Lc; lia).
  apply map_seq_ext. intros k x Hk. pose proof (nth_error_In _ _ Hk) as Hx.
  destruct (Src x Hx) as (b' & k' & A1' & A2' & (B1' & B2' & B3' & B4' & B5' & B6' & B7')). destruct (I2 x Hx) as [_ Hid'].
  assert (T : sb_tokens b' = sb_tokens b) by (apply U; [exact A1'|exact A1|congruence]).
  rewrite B7', T. rewrite (I3 _ _ Hk) in B4'. subst k'. rewrite Nat2N.id.
  assert (Hlt : N.of_nat k < frame_total b). { assert ((k < length gg)%nat) by (apply nth_error_Some; congruence). unfold blen in Lc. lia. }
  destruct (frame_fields E key b (N.of_nat k) Henv A2 (sb_wf_value _ A2) Hlt) as (_ & _ & _ & _ & F5 & _). rewrite F5, Nat2N.id. reflexivity.
Qed.
Lemma authentic_frame : forall E key tr st pre c post data, env_ok E -> history E key tr st -> no_forgery tr ->
  tr = pre ++ c :: post -> continuation INS_SIGN c = Some (0x12, data) ->
  exists b i, attested_box E key pre b /\ frame_from E key data b i.
Proof.
  intros E key tr st pre c post data Henv H Hf Et C. destruct (authentic _ _ _ _ _ _ _ _ Henv H Hf Et C) as (b & i & A & _ & B). eauto.
Qed.
