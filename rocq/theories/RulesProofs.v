(** Amounts, frames and outputs of open sessions. *)
From Verif Require Import Lib Env Bip32 Address ErgoTree Schnorr TxTable TxBox TxFull Amounts OutputInfo UiFlow P2pkOp App
  SpecVlq SpecText SpecTree SpecTrace SpecTx SpecApdu SpecAmounts SpecScreen SpecPages SpecDispatch SpecSign SpecRules AmountProofs TreeProofs Moves SignInv SignInput SignOutput SignRest SignShow
  TraceSign TraceScreen PageProofs TraceShow DispatchProofs FlowProofs RequestProofs SessionProofs SignedProofs Toy.

#[local] Arguments N.eqb : simpl never.
#[local] Arguments N.ltb : simpl never.
#[local] Arguments N.leb : simpl never.
#[local] Arguments N.sub : simpl never.
#[local] Arguments blen : simpl never.
#[local] Arguments num : simpl never.
#[local] Arguments slice : simpl never.

(** ** The transaction after an accepted command *)

Lemma amounts_range : forall d a, amounts_rel d a -> in_range d.
Proof.
  intros d a [R1 R2 R3 R4 R5]. split; [unfold two64 in R3; lia|]. split; [lia|]. intro id. pose proof (ar_range _ _ R5 id) as K.
  unfold i64_ok in K. rewrite andb_true_iff in K. destruct K as [K1 K2]. unfold two63 in *. lia.
Qed.
Lemma empty_range : in_range s_empty.
Proof. split; [reflexivity|]. split; [cbn; lia|]. intro id. unfold balance. cbn. lia. Qed.
Lemma once_spec : forall l, once l <-> no_repeat l.
Proof.
  intro l. split.
  - intros H a id v b w c E. destruct (N.eq_dec v 0) as [K|K]; [exact K|]. exfalso. apply (H _ _ _ E); cbn [fst snd]; [exact K|].
    rewrite map_app. apply in_or_app. right. left. reflexivity.
  - intros H a [id v] b E Hv Hin. cbn [fst snd] in *. apply Hv. apply in_map_iff in Hin as ([id' w] & K & Hin). cbn in K. subst id'.
    apply in_split in Hin as (b1 & c & ->). eapply H. exact E.
Qed.

Record good_tx (E : env) (signing : list N) (d : s_tx) : Prop := mk_good {
  gd_tx : d = s_empty \/ exists h, wf E d h /\ exists a, amounts_rel d a }.
Lemma good_range : forall E p d, good_tx E p d -> in_range d.
Proof. intros E p d [[-> | (h & _ & a & A)]]; [apply empty_range|eapply amounts_range; exact A]. Qed.
Lemma good_once : forall E p d, good_tx E p d -> Forall (fun o => no_repeat (tokens_of d o)) (sx_outputs d).
Proof.
  intros E p d [[-> | (h & W & _)]]; [constructor|]. eapply Forall_impl; [|apply (w_once _ _ _ W)]. intros o. apply once_spec.
Qed.
Lemma phase_good : forall E s body g k, sign_phase E s body g k -> good_tx E (ss_path s) (description body).
Proof.
  intros E s body g k H. unfold sign_phase in H. constructor. destruct (sg_state g); [left; apply H|]. destruct H as [_ H].
  assert (St : streaming E s (description body) (sg_op g) -> description body = s_empty \/ exists h, wf E (description body) h /\ exists a, amounts_rel (description body) a).
  { intros [[-> _]|(h & W & T & _)]; [left; reflexivity|]. right. exists h. split; [exact W|]. destruct T as (_ & _ & _ & A & _). eauto. }
  destruct k; try (apply St; exact H).
  - destruct H as (h & W & T & _). right. exists h. split; [exact W|]. destruct T as (_ & _ & _ & A & _). eauto.
  - destruct H as (h & W & T & _). right. exists h. split; [exact W|]. destruct T as (_ & _ & _ & A & _). eauto.
Qed.
(** Whenever the device is in a signing session. *)
Lemma ctx_good : forall E key tr st g, env_ok E -> history E key tr st -> st_ctx st = X_SIGN g ->
  exists start body, session_of INS_SIGN tr = Some (start, body) /\ good_tx E (start_path (start_data start)) (description body).
Proof.
  intros E key tr st g Henv H X. destruct (sign_inv_holds E key tr st Henv H) as [_ I]. rewrite X in I. destruct I as (start & body & s & I1 & I2 & _ & I4).
  exists start, body. split; [exact I1|]. destruct (started_data _ _ _ _ I2) as [<- _]. eapply phase_good. exact I4.
Qed.
Lemma continued_ctx : forall E key tr st c, env_ok E -> history E key (tr ++ [c]) st -> continuation INS_SIGN c <> None ->
  exists g, st_ctx st = X_SIGN g.
Proof.
  intros E key tr st [e outs] Henv H Hc. destruct (continuation INS_SIGN (e, outs)) as [x|] eqn:C; [|congruence].
  apply continuation_form in C as (p1 & p2 & data & r & -> & Hp & Ha & _).
  destruct (accepted_sign _ _ _ _ _ _ _ _ _ Henv H Hp Ha) as (st0 & g & start & body & s & Hh & _ & _ & M & B & X1 & X2 & _).
  inversion M; subst; try discriminate; try congruence; try solve [other]; try (match goal with K : (if ?b then UiApprove else UiReject) = _ |- _ => destruct b; discriminate K end).
  all: try (eexists; reflexivity).
  all: try (exists g; exact X1).
  all: exfalso; match goal with K : handler_error ?x = true \/ _ |- _ => destruct K as [K|[K _]]; destruct x; discriminate end.
Qed.
Lemma accepted_range : forall E key tr st c, env_ok E -> history E key (tr ++ [c]) st -> continuation INS_SIGN c <> None ->
  exists start body, session_of INS_SIGN (tr ++ [c]) = Some (start, body ++ [c]) /\ in_range (description (body ++ [c])) /\
    Forall (fun o => no_repeat (tokens_of (description (body ++ [c])) o)) (sx_outputs (description (body ++ [c]))).
Proof.
  intros E key tr st c Henv H Hc. destruct (continued_ctx _ _ _ _ _ Henv H Hc) as [g X].
  destruct (ctx_good _ _ _ _ _ Henv H X) as (start & body & S & G). rewrite session_snoc in *.
  destruct (is_start INS_SIGN c) eqn:Sc.
  { exfalso. destruct c as [[cla i p1 p2 data r| | | | | | | |] outs]; try discriminate. cbn in Hc, Sc. apply andb_true_iff in Sc as [Sc Sa]. apply andb_true_iff in Sc as [Sc Sp]. rewrite Sp, andb_false_r in Hc. apply Hc. reflexivity. }
  destruct (session_of INS_SIGN tr) as [[b l]|]; [|discriminate]. injection S as <- <-. exists b, l.
  split; [reflexivity|]. split; [eapply good_range; exact G|eapply good_once; exact G].
Qed.

(** ** Which commands are accepted when *)

Lemma accepted_exec : forall E key tr st p1 p2 data r outs, env_ok E ->
  history E key (tr ++ [(Apdu CLA INS_SIGN p1 p2 data r, outs)]) st -> p1 <> 1 -> accepted outs = true ->
  exists g start body s, event_ok (Apdu CLA INS_SIGN p1 p2 data r) /\
    session_of INS_SIGN tr = Some (start, body) /\ sign_started E start s p2 /\
    Forall (keeps INS_SIGN p2) body /\ approved_in INS_SIGN p2 body /\ streaming E s (description body) (sg_op g) /\
    exists op a, sign_exec E key (sg_op g) p1 data = Some (Ok op, a) /\
      (outs = [OResp [] SW_OK] /\ a <> A_CONFIRM \/
       (exists f pages, outs = [OShow U_STX_OUTPUT f pages]) /\ a = A_OUTPUT \/
       (exists f pages, outs = [OShow U_STX_TX f pages]) /\ p1 = 0x20).
Proof.
  intros E key tr st p1 p2 data r outs Henv H Hp Ha.
  destruct (accepted_sign _ _ _ _ _ _ _ _ _ Henv H Hp Ha) as (st0 & g & start & body & s & Hh & Sh & Hev & M & B & X1 & X2 & X3 & X4 & X5 & X6 & X7 & X8).
  destruct (sign_inv_holds E key tr st0 Henv Hh) as [Hk _].
  exists g, start, body, s. do 6 (split; [assumption|]).
  inversion M; subst; try discriminate; try congruence; try solve [other]; try (match goal with K : (if ?b then UiApprove else UiReject) = _ |- _ => destruct b; discriminate K end).
  all: try (match goal with K : handler_error ?x = true \/ _ |- _ => exfalso; destruct K as [K|[K _]]; destruct x; discriminate end).
  all: try (match goal with K : refused _ _ ?x |- _ => exfalso; unfold refused in K; cbv beta iota in K; assert (x = SW_OK) by (destruct x; try discriminate; reflexivity); subst x; intuition discriminate end).
  all: match goal with K : st_ctx _ = X_SIGN ?g', K' : st_ctx _ = X_SIGN ?g'' |- _ => tryif constr_eq g' g'' then fail else (assert (g' = g'') by congruence; subst g') end.
  - exists op, a. split; [assumption|]. left. split; [reflexivity|]. match goal with K : _ = A_OK \/ _ |- _ => destruct K as [-> | [-> _]]; discriminate end.
  - exists op, A_OUTPUT. split; [assumption|]. right. left. split; [eauto|reflexivity].
  - eexists _, A_CONFIRM. split; [reflexivity|]. right. right. split; [eauto|reflexivity].
Qed.

(** Once an output is open, only output commands and the final confirmation. *)
Lemma exec_outputs : forall E s key d op sub data op' a, streaming E s d op ->
  sign_exec E key op sub data = Some (Ok op', a) -> sx_outputs d <> [] ->
  In sub [0x15;0x16;0x17;0x18;0x19;0x1A;0x20].
Proof.
  intros E s key d op sub data op' a S H Hne. destruct S as [[-> _]|(h & W & T & _)]; [contradiction|].
  destruct T as (_ & Hst & _).
  assert (Hs : op_state_of op = OP_OUTPUTS_STARTED \/ op_state_of op = OP_TX_FINISHED).
  { rewrite Hst. unfold op_phase. destruct (sx_outputs d); [contradiction|]. destruct (outputs_in d h); auto. }
  clear Hst.
  assert (Hin : In sub [0x10;0x11;0x12;0x13;0x14;0x15;0x16;0x17;0x18;0x19;0x1A;0x20]).
  { unfold sign_exec in H. cbn [In].
    repeat match type of H with match ?n with _ => _ end = _ => destruct n; try discriminate end; tauto. }
  cbn [In] in *.
  destruct Hin as [<-|Hin]; [exfalso|].
  { cbv [sign_exec] in H. injection H as H _. apply bind_ok in H as ([[[i dd] t] o] & _ & H). unfold p2pk_start_tx in H. destruct Hs as [K|K]; rewrite K in H; discriminate. }
  destruct Hin as [<-|Hin]; [exfalso|].
  { cbv [sign_exec] in H. injection H as H _. unfold p2pk_add_tokens in H. destruct Hs as [K|K]; rewrite K in H; discriminate. }
  destruct Hin as [<-|Hin]; [exfalso|].
  { cbv [sign_exec] in H. injection H as H _. apply bind_ok in H as (f & _ & H). apply bind_ok in H as (o1 & H & H2). destruct (if_index f =? 0).
    - unfold p2pk_add_input in H. destruct Hs as [K|K]; rewrite K in H; discriminate.
    - injection H as <-. unfold p2pk_add_input_tokens in H2. destruct Hs as [K|K]; rewrite K in H2; discriminate. }
  destruct Hin as [<-|Hin]; [exfalso|].
  { cbv [sign_exec] in H. injection H as H _. unfold p2pk_add_input_context_extension in H. destruct Hs as [K|K]; rewrite K in H; discriminate. }
  destruct Hin as [<-|Hin]; [exfalso|].
  { cbv [sign_exec] in H. injection H as H _. unfold p2pk_add_data_inputs in H. destruct Hs as [K|K]; rewrite K in H; discriminate. }
  tauto.
Qed.
(** The last output after an accepted output command. *)
Definition keeps_flags (f : s_output -> s_output) : Prop := forall o, so_shown (f o) = so_shown o /\ so_approved (f o) = so_approved o.
Lemma out_cmd : forall sub data, In sub [0x16;0x17;0x18;0x19;0x1A] -> exists f, keeps_flags f /\ forall d, describe_cmd d sub data = on_outputs (upd_last f) d.
Proof.
  intros sub data H. cbn [In] in H.
  destruct H as [<-|[<-|[<-|[<-|[<-|[]]]]]]; (eexists; split; [|intro d; reflexivity]); intro o; split; reflexivity.
Qed.
(** After an output was shown, only a new output or the final confirmation. *)
Lemma exec_shown : forall E s key d op sub data op' a pre o, env_ok E -> bytes_ok data = true -> blen data <= 255 -> streaming E s d op ->
  sign_exec E key op sub data = Some (Ok op', a) -> sx_outputs d = pre ++ [o] -> so_shown o = true -> sub = 0x15 \/ sub = 0x20.
Proof.
  intros E s key d op sub data op' a pre o Henv Hb Hl S H Ho Hs.
  assert (Hne : sx_outputs d <> []) by (rewrite Ho; apply snoc_not_nil).
  pose proof (exec_outputs _ _ _ _ _ _ _ _ _ S H Hne) as Hin. cbn [In] in Hin. destruct Hin as [<-|Hin]; [auto|].
  assert (X : In sub [0x16;0x17;0x18;0x19;0x1A] \/ sub = 0x20) by (cbn [In]; intuition). destruct X as [X|X]; [exfalso|auto].
  assert (Ha : a = A_OUTPUT). { cbn [In] in X. destruct X as [<-|[<-|[<-|[<-|[<-|[]]]]]]; cbv [sign_exec] in H; congruence. }
  destruct (exec_ok E s key d op sub data op' a Henv Hb Hl S H ltac:(subst a; discriminate)) as (_ & _ & K).
  destruct (K Ha) as (h & W & T & F & _). destruct (out_cmd sub data X) as (f & Kf & Ef). rewrite Ef, (upd_outs _ _ _ _ Ho) in F.
  destruct (F pre (f o) eq_refl) as (_ & F2 & _). destruct (Kf o) as [K1 _]. congruence.
Qed.

(** ** What was shown for an output *)

Definition nothing (x : obs) : Prop := shown_by (snd x) = None /\ is_approval x = false.
Lemma user_no_show : forall E key tr e outs st, history E key (tr ++ [(e, outs)]) st -> by_user e = true -> shown_by outs = None.
Proof.
  intros E key tr e outs st H U. apply history_last in H as (st0 & _ & _ & _ & _ & M & _).
  destruct M; try discriminate; try reflexivity; try (destruct b; reflexivity); unfold resp; destruct s; reflexivity.
Qed.
Lemma keeps_nothing : forall E key tr x st sid, history E key (tr ++ [x]) st -> keeps INS_SIGN sid x -> continuation INS_SIGN x = None ->
  is_approval x = false -> nothing x.
Proof.
  intros E key tr [e outs] st sid H K C A. split; [|exact A]. destruct (by_user e) eqn:U; [eapply user_no_show; eauto|].
  destruct e; try discriminate.
  - cbn [keeps] in K. destruct K as [[K _]|[[_ [b K]]|(s & K & _)]]; [congruence|..]; subst outs; reflexivity.
  - cbn [keeps] in K. subst outs. reflexivity.
Qed.

Definition tracked (body : list obs) (d : s_tx) (pre : list s_output) (o : s_output) (post : list s_output) : Prop :=
  exists b1 c rest f pages, body = b1 ++ c :: rest /\ shown_by (snd c) = Some (U_STX_OUTPUT, f, pages) /\
    sx_outputs (description (b1 ++ [c])) = pre ++ [reflag true false o] /\
    sx_tokens (description (b1 ++ [c])) = sx_tokens d /\ sx_inputs (description (b1 ++ [c])) = sx_inputs d /\
    (Forall nothing rest /\ so_approved o = false /\ post = [] \/
     exists b2 a b3, rest = b2 ++ a :: b3 /\ Forall nothing b2 /\ is_approval a = true).
Lemma tracked_more : forall body d pre o post x d' post', tracked body d pre o post -> so_approved o = true \/ post <> [] ->
  sx_tokens d' = sx_tokens d -> sx_inputs d' = sx_inputs d -> tracked (body ++ [x]) d' pre o post'.
Proof.
  intros body d pre o post x d' post' (b1 & c & rest & f & pages & -> & T2 & T3 & T4 & T5 & T6) Ha Et Ei.
  exists b1, c, (rest ++ [x]), f, pages. rewrite <- app_assoc. do 3 (split; [assumption || reflexivity|]). do 2 (split; [congruence|]). right.
  destruct T6 as [(_ & T6 & T7)|(b2 & a & b3 & -> & T7 & T8)]; [destruct Ha; congruence|]. exists b2, a, (b3 ++ [x]). rewrite <- app_assoc. auto.
Qed.
Lemma split_last : forall A (pre : list A) o post a x, pre ++ o :: post = a ++ [x] ->
  (pre = a /\ o = x /\ post = []) \/ exists post0, post = post0 ++ [x] /\ a = pre ++ o :: post0.
Proof.
  intros A pre o post a x H. destruct (snoc_cases _ post) as [->|(q & y & ->)].
  - apply snoc_inj in H as [-> ->]. auto.
  - rewrite app_comm_cons, app_assoc in H. apply snoc_inj in H as [<- <-]. eauto.
Qed.

Lemma tracked_holds : forall E key tr0 start sid body st, env_ok E -> history E key (tr0 ++ start :: body) st ->
  is_start INS_SIGN start = true -> Forall (fun x => is_start INS_SIGN x = false) body -> Forall (keeps INS_SIGN sid) body ->
  forall pre o post, sx_outputs (description body) = pre ++ o :: post -> so_shown o = true -> tracked body (description body) pre o post.
Proof.
  intros E key tr0 start sid body st Henv H Hst. revert st H. induction body as [|x body IH] using rev_ind; intros st H F K pre o post Ho Hs.
  { exfalso. cbn in Ho. destruct pre; discriminate. }
  apply Forall_app in F as [F _]. apply Forall_app in K as [K Kx]. inversion Kx as [|? ? Kx' _]; subst. clear Kx.
  rewrite app_comm_cons, app_assoc in H. destruct (history_prefix _ _ _ _ _ H) as [st0 H0].
  specialize (IH _ H0 F K). pose proof (session_after _ tr0 _ _ Hst F) as Hses.
  rewrite description_snoc in *. set (d := description body) in *.
  destruct (continuation INS_SIGN x) as [[sub data]|] eqn:C.
  - destruct x as [e outs]. pose proof C as C'. apply continuation_form in C' as (p1 & p2 & data' & r & -> & Hp & Ha & K').
    injection K' as <- <-.
    destruct (accepted_exec _ _ _ _ _ _ _ _ _ Henv H Hp Ha) as (g & start' & body' & s & Hev & X1 & _ & _ & _ & S & op & a & X & Y).
    rewrite Hses in X1. injection X1 as <- <-. fold d in S.
    destruct Hev as (_ & _ & _ & _ & Hb & Hl & _). assert (Hl' : blen data <= 255) by (unfold blen; lia).
    unfold describe in *. rewrite C in *. cbn [snd] in *.
    assert (Hset : forall p y q, sx_outputs d = p ++ y :: q -> so_approved y = so_shown y).
    { destruct S as [[-> _]|(h & _ & _ & Se)]; [intros [|] y q Hy; discriminate|]. intros p y q Hy. apply (Se p y q Hy). }
    set (d1 := describe_cmd d sub data) in *.
    destruct (snoc_cases _ (sx_outputs d)) as [En|(p0 & o0 & En)].
    + exfalso. assert (E1 : sx_outputs d1 = [] \/ exists y, sx_outputs d1 = [y] /\ so_shown y = false /\ sub = 0x15).
      { unfold d1, describe_cmd. destruct sub as [|q]; [left; exact En|].
        do 5 (destruct q as [q|q|]; try (left; cbn; rewrite En; reflexivity)); try (destruct (num 33 1 data =? 0); left; exact En);
        right; eexists; cbn; rewrite En; split; try reflexivity; split; reflexivity. }
      assert (E2 : shows_output outs = true -> exists p y, sx_outputs d1 = p ++ [y] /\ sub <> 0x15).
      { intro Z. destruct Y as [[-> _]|[[_ Ea]|[(f & pages & ->) _]]]; try discriminate.
        destruct (exec_ok E s key d (sg_op g) sub data op a Henv Hb Hl' S X ltac:(subst a; discriminate)) as (_ & _ & Q).
        destruct (Q Ea) as (h & _ & _ & _ & Ne). destruct (snoc_cases _ (sx_outputs d1)) as [?|(p & y & Ey)]; [contradiction|].
        exists p, y. split; [exact Ey|]. intros ->. subst a. discriminate X. }
      destruct (shows_output outs).
      * destruct (E2 eq_refl) as (p & y & Ey & Nsub). destruct E1 as [E1|(z & _ & _ & E1)]; [|contradiction]. rewrite E1 in Ey. destruct p; discriminate.
      * destruct E1 as [E1|(y & E1 & E3 & _)]; rewrite E1 in Ho; [destruct pre; discriminate|].
        destruct pre as [|z pre]; [injection Ho as <- <-; congruence|destruct pre; discriminate].
    + assert (Hne : sx_outputs d <> []) by (rewrite En; apply snoc_not_nil).
      pose proof (exec_outputs _ _ _ _ _ _ _ _ _ S X Hne) as Hin.
      assert (Hin' : sub = 0x15 \/ sub = 0x20 \/ In sub [0x16;0x17;0x18;0x19;0x1A]) by (cbn [In] in Hin |- *; intuition).
      assert (Old : forall y q q' d', sx_outputs d = pre ++ y :: q -> o = y -> sx_tokens d' = sx_tokens d -> sx_inputs d' = sx_inputs d ->
        tracked (body ++ [(Apdu CLA INS_SIGN sub p2 data r, outs)]) d' pre o q').
      { intros y q q' d' Ey -> Et Ei. eapply tracked_more; [apply (IH _ _ _ Ey Hs)| |exact Et|exact Ei]. left. rewrite (Hset _ _ _ Ey). exact Hs. }
      destruct Hin' as [-> | [-> | Hin']].
      * assert (Z : shows_output outs = false). { destruct Y as [[-> _]|[[_ Ea]|[(f & pages & ->) _]]]; try reflexivity. cbv [sign_exec] in X. congruence. }
        rewrite Z in *. change (sx_outputs d1) with (sx_outputs d ++ [mk_so (num 0 8 data) (num 8 4 data) (num 12 4 data) (num 16 1 data) (num 17 4 data) None [] [] false false]) in Ho.
        symmetry in Ho. apply split_last in Ho as [(_ & -> & _)|(post0 & -> & Eo)]; [discriminate Hs|].
        eapply Old; [exact Eo|reflexivity|reflexivity|reflexivity].
      * assert (Z : shows_output outs = false). { destruct Y as [[-> _]|[[_ Ea]|[(f & pages & ->) _]]]; try reflexivity. cbv [sign_exec] in X. congruence. }
        rewrite Z in *. eapply Old; [exact Ho|reflexivity|reflexivity|reflexivity].
      * destruct (out_cmd sub data Hin') as (fn & Kf & Ef). unfold d1 in *. rewrite Ef in *.
        assert (Hs0 : so_shown o0 = false).
        { destruct (so_shown o0) eqn:Es; [|reflexivity]. exfalso.
          destruct (exec_shown _ _ _ _ _ _ _ _ _ _ _ Henv Hb Hl' S X En Es) as [-> | ->]; cbn [In] in Hin'; intuition discriminate. }
        pose proof (Hset p0 o0 [] En) as Ha0. rewrite Hs0 in Ha0. destruct (Kf o0) as [Kf1 Kf2].
        rewrite (upd_outs _ _ _ _ En) in *. destruct (shows_output outs) eqn:Z.
        -- rewrite (upd_outs (with_outs d (p0 ++ [fn o0])) _ p0 (fn o0) eq_refl) in *. cbn [with_outs on_outputs sx_outputs] in Ho. symmetry in Ho.
           apply split_last in Ho as [(-> & -> & ->)|(post0 & -> & Eo)].
           ++ exists body, (Apdu CLA INS_SIGN sub p2 data r, outs), []. destruct Y as [[-> _]|[[(f & pages & ->) Ea]|[(f & pages & ->) _]]]; try discriminate.
              exists f, pages. split; [reflexivity|]. split; [reflexivity|]. rewrite description_snoc. unfold describe. rewrite C. cbn [snd]. rewrite Z. fold d.
              rewrite Ef, (upd_outs _ _ _ _ En), (upd_outs (with_outs d (p0 ++ [fn o0])) _ p0 (fn o0) eq_refl). split.
              { cbn [with_outs on_outputs sx_outputs]. rewrite set_shown_flag. rewrite Kf2, Ha0. reflexivity. }
              split; [reflexivity|]. split; [reflexivity|]. left. split; [constructor|]. split; [|reflexivity]. cbn [set_shown so_approved]. congruence.
           ++ eapply Old; [rewrite En, Eo, <- app_assoc; reflexivity|reflexivity|reflexivity|reflexivity].
        -- cbn [with_outs on_outputs sx_outputs] in Ho. symmetry in Ho. apply split_last in Ho as [(_ & -> & _)|(post0 & -> & Eo)]; [congruence|].
           eapply Old; [rewrite En, Eo, <- app_assoc; reflexivity|reflexivity|reflexivity|reflexivity].
  - unfold describe in *. rewrite C in *. destruct (is_approval x) eqn:A.
    + destruct (snoc_cases _ (sx_outputs d)) as [En|(p0 & o0 & En)].
      { exfalso. cbn [on_outputs sx_outputs] in Ho. rewrite En in Ho. destruct pre; discriminate. }
      rewrite (upd_outs _ _ _ _ En) in *. cbn [with_outs on_outputs sx_outputs] in Ho. symmetry in Ho. apply split_last in Ho as [(-> & -> & ->)|(post0 & -> & Eo)].
      * cbn [set_approved so_shown] in Hs. destruct (IH p0 o0 [] En Hs) as (b1 & c & rest & f & pages & Eb & T2 & T3 & T4 & T5 & T6).
        exists b1, c, (rest ++ [x]), f, pages. rewrite Eb, <- app_assoc. do 5 (split; [assumption || reflexivity|]). right.
        destruct T6 as [(T6 & _ & _)|(b2 & a & b3 & -> & T7 & T8)]; [exists rest, x, []; auto|]. exists b2, a, (b3 ++ [x]). rewrite <- app_assoc. auto.
      * eapply tracked_more; [apply (IH pre o (post0 ++ [o0])); [rewrite En, Eo, <- app_assoc; reflexivity|exact Hs]|right; apply snoc_not_nil|reflexivity|reflexivity].
    + destruct (IH _ _ _ Ho Hs) as (b1 & c & rest & f & pages & Eb & T2 & T3 & T4 & T5 & T6).
      exists b1, c, (rest ++ [x]), f, pages. rewrite Eb, <- app_assoc. do 5 (split; [assumption || reflexivity|]).
      destruct T6 as [(T6 & T6' & T6'')|(b2 & a & b3 & -> & T7 & T8)].
      * left. split; [|auto]. apply Forall_app. split; [exact T6|]. constructor; [|constructor]. eapply keeps_nothing; eauto.
      * right. exists b2, a, (b3 ++ [x]). rewrite <- app_assoc. auto.
Qed.

(** ** C19, C20: commands that would break the rules *)

Definition legal (d : s_tx) : Prop := in_range d /\ Forall (fun o => no_repeat (tokens_of d o)) (sx_outputs d).
Lemma legal_shown : forall d f, (forall o, so_value (f o) = so_value o /\ so_dest (f o) = so_dest o /\ so_tokens (f o) = so_tokens o) ->
  legal (on_outputs (upd_last f) d) -> legal d.
Proof.
  intros d f Hf L. destruct (snoc_cases _ (sx_outputs d)) as [En|(pre & o & En)].
  - replace (on_outputs (upd_last f) d) with d in L; [exact L|]. unfold on_outputs. rewrite En. destruct d. cbn in *. subst. reflexivity.
  - rewrite (upd_outs _ _ _ _ En) in L. destruct (Hf o) as (F1 & F2 & F3).
    assert (G1 : fees (with_outs d (pre ++ [f o])) = fees d).
    { replace (fees d) with (fees (with_outs d (pre ++ [o]))) by (rewrite <- En, with_outs_same; reflexivity). rewrite !fees_snoc. unfold is_fee. rewrite F1, F2. reflexivity. }
    assert (G2 : change (with_outs d (pre ++ [f o])) = change d).
    { replace (change d) with (change (with_outs d (pre ++ [o]))) by (rewrite <- En, with_outs_same; reflexivity). rewrite !change_snoc. unfold is_change. rewrite F1, F2. reflexivity. }
    assert (G3 : forall x, tokens_of (with_outs d (pre ++ [f o])) x = tokens_of d x) by (intro; apply tokens_of_same; reflexivity).
    assert (G4 : tokens_of d (f o) = tokens_of d o) by (unfold tokens_of; rewrite F3; reflexivity).
    assert (G5 : output_tokens (with_outs d (pre ++ [f o])) = output_tokens d).
    { unfold output_tokens. rewrite En. cbn [with_outs on_outputs sx_outputs]. rewrite !map_app. cbn [map]. rewrite G3, G4. rewrite (map_ext _ _ G3). reflexivity. }
    destruct L as [(L1 & L2 & L3) L4]. split; [split; [exact L1|split]|].
    + rewrite G1, G2 in L2. exact L2.
    + intro id. specialize (L3 id). unfold balance in *. rewrite G5 in L3. exact L3.
    + rewrite En. cbn [with_outs on_outputs sx_outputs] in L4. apply Forall_snoc in L4 as [L4 L5]. apply Forall_snoc. split.
      * eapply Forall_impl; [|exact L4]. intros x Hx. cbv beta in Hx. rewrite G3 in Hx. exact Hx.
      * rewrite G3, G4 in L5. exact L5.
Qed.
(** A continuation command that is not accepted. *)
Lemma refused_command : forall E key tr st ins p1 p2 data r st' outs, env_ok E -> history E key tr st -> ins = INS_ATTEST \/ ins = INS_SIGN ->
  event_ok (Apdu CLA ins p1 p2 data r) -> step E st (Apdu CLA ins p1 p2 data r) = (st', outs) -> ~ In ODiverge outs -> accepted outs = false ->
  exists s, outs = [OResp [] s] /\ s <> SW_OK /\ (st' = st /\ (s = SW_BUSY \/ s = SW_WRONG_P1P2) \/ cleared st').
Proof.
  intros E key tr st ins p1 p2 data r st' outs Henv H Hi Hev Hs Hd Ha.
  assert (H' : history E key (tr ++ [(Apdu CLA ins p1 p2 data r, outs)]) st') by (econstructor; eauto).
  destruct (answers _ _ _ _ _ _ Henv H') as [Hlen Hans]. pose proof (no_command_ub _ _ _ _ _ _ _ _ _ _ _ Henv H') as Hub.
  assert (Hn : interactive ins = true) by (destruct Hi as [-> | ->]; reflexivity).
  destruct outs as [|x [|y outs]]; [|..|cbn in Hlen; lia].
  - exfalso. pose proof (history_shape _ _ _ _ H) as Sh. assert (M : move E st (Apdu CLA ins p1 p2 data r) st' []) by (eapply step_move; eauto).
    inversion M; subst; try solve [other]; try (match goal with K : forall cla ins p1 p2 data r, Apdu _ _ _ _ _ _ <> _ |- _ => eapply K; reflexivity end).
    all: match goal with K : _ \/ _ |- _ => destruct K as [[K _]|[K _]]; discriminate K end.
  - destruct x as [b s| k f pages | i t b | | ].
    + destruct (Hans b s (or_introl eq_refl)) as (A1 & _ & _). assert (Hne : s <> SW_OK) by (intros ->; discriminate Ha). rewrite (A1 Hne) in *.
      exists s. split; [reflexivity|]. split; [exact Hne|].
      destruct (error_wipes _ _ _ _ _ _ _ _ _ _ _ _ _ Henv H Hev Hn Hs (or_introl eq_refl) Hne) as (_ & _ & [K|[K|(_ & K & _)]]);
        [auto|auto|destruct Hi as [-> | ->]; discriminate K].
    + discriminate Ha.
    + exfalso. pose proof (history_shape _ _ _ _ H) as Sh. assert (M : move E st (Apdu CLA ins p1 p2 data r) st' [OPage i t b]) by (eapply step_move; eauto).
      inversion M; subst; try solve [other]; try (match goal with K : resp ?s = _ |- _ => destruct s; discriminate K end).
      all: match goal with K : _ \/ _ |- _ => destruct K as [[K _]|[K _]]; discriminate K end.
    + exfalso. apply Hd. left. reflexivity.
    + exfalso. apply Hub. left. reflexivity.
Qed.
Lemma refused_over : forall E key tr1 o tr2 c st ins p1 p2 data r outs, env_ok E -> ins = INS_ATTEST \/ ins = INS_SIGN ->
  o = (Apdu CLA ins p1 p2 data r, outs) -> accepted outs = false -> ~ early_refusal outs ->
  history E key (tr1 ++ o :: tr2 ++ [c]) st -> continuation ins c <> None ->
  exists a start b sid, tr2 = a ++ start :: b /\ is_start ins start = true /\ session_id ins sid start b.
Proof.
  intros E key tr1 o tr2 c st ins p1 p2 data r outs Henv Hi -> Ha He H C. eapply ended; eauto. split; [reflexivity|].
  split; [destruct Hi as [-> | ->]; reflexivity|]. auto.
Qed.
Lemma not_accepted : forall E key tr st p1 p2 data r st' outs, env_ok E -> history E key tr st ->
  event_ok (Apdu CLA INS_SIGN p1 p2 data r) -> step E st (Apdu CLA INS_SIGN p1 p2 data r) = (st', outs) -> p1 <> 1 ->
  history E key (tr ++ [(Apdu CLA INS_SIGN p1 p2 data r, outs)]) st' /\
  (accepted outs = false ->
   exists s, outs = [OResp [] s] /\ s <> SW_OK /\ (st' = st /\ (s = SW_BUSY \/ s = SW_WRONG_P1P2) \/ cleared st')).
Proof.
  intros E key tr st p1 p2 data r st' outs Henv H Hev Hs Hp.
  assert (Hd : ~ In ODiverge outs).
  { pose proof (no_diverge E st INS_SIGN p1 p2 data r (or_intror eq_refl) Hp) as K. rewrite Hs in K. exact K. }
  split; [econstructor; eauto|]. intro Ha. eapply refused_command; eauto.
Qed.

Lemma illegal_refused : forall E key tr st p1 p2 data r st' outs start body, env_ok E -> history E key tr st ->
  event_ok (Apdu CLA INS_SIGN p1 p2 data r) -> step E st (Apdu CLA INS_SIGN p1 p2 data r) = (st', outs) -> p1 <> 1 ->
  session_of INS_SIGN tr = Some (start, body) -> ~ legal (describe_cmd (description body) p1 data) ->
  exists s, outs = [OResp [] s] /\ s <> SW_OK /\ (st' = st /\ (s = SW_BUSY \/ s = SW_WRONG_P1P2) \/ cleared st').
Proof.
  intros E key tr st p1 p2 data r st' outs start body Henv H Hev Hs Hp Hses Hn.
  destruct (not_accepted _ _ _ _ _ _ _ _ _ _ Henv H Hev Hs Hp) as [H' R].
  destruct (accepted outs) eqn:Ha; [|apply R; reflexivity]. exfalso. apply Hn.
    assert (C : continuation INS_SIGN (Apdu CLA INS_SIGN p1 p2 data r, outs) = Some (p1, data)).
    { cbn. apply N.eqb_neq in Hp. rewrite Hp, Ha. reflexivity. }
    destruct (accepted_range _ _ _ _ _ Henv H' ltac:(rewrite C; discriminate)) as (s0 & b0 & S & L1 & L2).
    rewrite session_snoc in S. assert (Si : is_start INS_SIGN (Apdu CLA INS_SIGN p1 p2 data r, outs) = false).
    { cbn. apply N.eqb_neq in Hp. rewrite Hp. reflexivity. }
    rewrite Si, Hses in S. apply (f_equal (fun z => match z with Some (_, l) => l | None => [] end)) in S.
    apply snoc_inj in S as [<- _]. rewrite description_snoc in L1, L2. unfold describe in L1, L2. rewrite C in L1, L2. cbn [snd] in L1, L2.
    destruct (shows_output outs); [|split; assumption]. eapply legal_shown; [|split; [exact L1|exact L2]]. intro o. repeat split.
Qed.

(** ** A session that is over gives no signature *)

Lemma over_signature : forall E key tr1 tr2 x st1 st sig, env_ok E -> history E key tr1 st1 -> not_sign (st_ctx st1) ->
  history E key (tr1 ++ tr2 ++ [x]) st -> signature x = Some sig ->
  exists a start b sid, tr2 = a ++ start :: b /\ is_start INS_SIGN start = true /\ approved_in INS_SIGN sid b.
Proof.
  intros E key tr1 tr2 [e outs] st1 st sig Henv H1 N1 H S. rewrite app_assoc in H.
  destruct (signed _ _ _ _ _ _ Henv H S) as (_ & (q & f & pages & Q) & _ & start & body & sid & s & h & sk & ch & O1 & F & _).
  apply history_last in H as (st0 & Hh & _).
  destruct (paged_session _ _ _ _ _ _ _ _ Henv Hh Q (or_intror eq_refl)) as (g & _ & _ & _ & X1 & _).
  destruct (start_or_none INS_SIGN tr2) as [Fo|(a & y & b & -> & A & B)].
  - exfalso. pose proof (sign_created _ _ _ _ _ _ Henv H1 N1 Hh Fo) as K. rewrite X1 in K. exact K.
  - exists a, y, b, sid. split; [reflexivity|]. split; [exact A|].
    rewrite app_assoc, (session_after _ _ _ _ A B) in O1. injection O1 as <- <-. apply F.
Qed.
Lemma cleared_signature : forall E key tr1 tr2 x st1 st sig, env_ok E -> history E key tr1 st1 -> cleared st1 ->
  history E key (tr1 ++ tr2 ++ [x]) st -> signature x = Some sig ->
  exists a start b sid, tr2 = a ++ start :: b /\ is_start INS_SIGN start = true /\ approved_in INS_SIGN sid b.
Proof. intros E key tr1 tr2 x st1 st sig Henv H1 [_ C]. eapply over_signature; eauto. rewrite C. exact I. Qed.

Lemma range_refused : forall E key tr st p1 p2 data r st' outs start body, env_ok E -> history E key tr st ->
  event_ok (Apdu CLA INS_SIGN p1 p2 data r) -> step E st (Apdu CLA INS_SIGN p1 p2 data r) = (st', outs) -> p1 <> 1 ->
  session_of INS_SIGN tr = Some (start, body) -> ~ in_range (describe_cmd (description body) p1 data) ->
  exists s, outs = [OResp [] s] /\ s <> SW_OK /\ (st' = st /\ (s = SW_BUSY \/ s = SW_WRONG_P1P2) \/ cleared st').
Proof. intros E key tr st p1 p2 data r st' outs start body Henv H Hev Hs Hp Hses Hn. eapply illegal_refused; eauto. intros [K _]. exact (Hn K). Qed.
Lemma repeat_refused : forall E key tr st p1 p2 data r st' outs start body, env_ok E -> history E key tr st ->
  event_ok (Apdu CLA INS_SIGN p1 p2 data r) -> step E st (Apdu CLA INS_SIGN p1 p2 data r) = (st', outs) -> p1 <> 1 ->
  session_of INS_SIGN tr = Some (start, body) ->
  (let d := describe_cmd (description body) p1 data in ~ Forall (fun o => no_repeat (tokens_of d o)) (sx_outputs d)) ->
  exists s, outs = [OResp [] s] /\ s <> SW_OK /\ (st' = st /\ (s = SW_BUSY \/ s = SW_WRONG_P1P2) \/ cleared st').
Proof. intros E key tr st p1 p2 data r st' outs start body Henv H Hev Hs Hp Hses Hn. eapply illegal_refused; eauto. intros [_ K]. exact (Hn K). Qed.
