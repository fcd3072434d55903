(** The signing session as read off the history: the invariant behind the theorems on
    signatures and confirmation screens. *)
From Verif Require Import Lib Env Bip32 ErgoTree Schnorr TxTable TxBox TxFull Amounts OutputInfo UiFlow P2pkOp App
  SpecTree SpecTrace SpecTx SpecApdu SpecAmounts Moves SignInv SignInput SignOutput SignRest SignShow.

#[local] Arguments N.eqb : simpl never.
#[local] Arguments N.ltb : simpl never.
#[local] Arguments N.leb : simpl never.
#[local] Arguments N.sub : simpl never.
#[local] Arguments blen : simpl never.
#[local] Arguments num : simpl never.
#[local] Arguments slice : simpl never.

(** ** Sessions of a history, one observation at a time *)

Lemma session_snoc : forall ins tr o, session_of ins (tr ++ [o]) =
  if is_start ins o then Some (o, []) else match session_of ins tr with Some (b, l) => Some (b, l ++ [o]) | None => None end.
Proof. intros. unfold session_of. rewrite fold_left_app. reflexivity. Qed.
Lemma description_snoc : forall body o, description (body ++ [o]) = describe (description body) o.
Proof. intros. unfold description. rewrite fold_left_app. reflexivity. Qed.

(** What is neither a start, a continuation nor an approval. *)
Definition quiet (ins : N) (o : obs) : Prop :=
  is_start ins o = false /\ continuation ins o = None /\ is_approval o = false.
Lemma describe_quiet : forall d o, quiet INS_SIGN o -> describe d o = d.
Proof. intros d o (_ & H1 & H2). unfold describe. rewrite H1, H2. reflexivity. Qed.

Lemma not_accepted_quiet : forall ins e outs, accepted outs = false -> quiet ins (e, outs).
Proof.
  intros ins e outs H. unfold quiet, is_start, continuation, is_approval. destruct e; rewrite ?H, ?andb_false_r; auto.
Qed.
Lemma other_quiet : forall ins cla i p1 p2 data r outs, i <> ins -> quiet ins (Apdu cla i p1 p2 data r, outs).
Proof.
  intros ins cla i p1 p2 data r outs H. apply N.eqb_neq in H. unfold quiet, is_start, continuation. rewrite H, !andb_false_r. auto.
Qed.
Lemma refused_quiet : forall ins st e s, refused st e s -> quiet ins (e, [OResp [] s]).
Proof.
  intros ins st e s H. apply not_accepted_quiet. destruct e; cbn in H; try contradiction; [|subst; reflexivity].
  repeat match type of H with _ \/ _ => destruct H as [H|H] end; decompose [and] H; subst; reflexivity.
Qed.

(** ** The commands of an open session *)

Lemma refused_keeps : forall ins sid st e s, refused st e s -> keeps ins sid (e, [OResp [] s]).
Proof.
  intros ins sid st e s H. destruct e; cbn in H; try contradiction; cbn [keeps].
  - right. right. exists s. split; [reflexivity|].
    repeat match type of H with _ \/ _ => destruct H as [H|H] end; decompose [and] H; subst; cbn; tauto.
  - subst. reflexivity.
Qed.
Lemma approved_snoc : forall ins sid body o, approved_in ins sid body -> approved_in ins sid (body ++ [o]).
Proof.
  intros ins sid body o (b1 & e & b2 & -> & H). exists b1, e, (b2 ++ [o]). split; [|exact H]. rewrite <- app_assoc. reflexivity.
Qed.

(** ** The start command *)

Definition sign_started (E : env) (start : obs) (s : session) (sid : N) : Prop :=
  exists p2 data r f sk ch pk w,
    start = (Apdu CLA INS_SIGN 1 p2 data r, [OShow U_STX_APPROVE f []]) /\ one_or_two p2 = true /\ event_ok (fst start) /\
    ss_path s = start_path data /\ ss_network s = start_network data /\
    ergo_path_validate (ss_path s) V_ADDRESS_GE5 = true /\ (length (ss_path s) <= 10)%nat /\ Address.network_id_is_supported (ss_network s) = true /\
    e_derive E (ss_path s) = Some (sk, ch) /\ e_mulG E sk = Some pk /\ e_mulG E (ss_key s) = Some w /\
    In (ss_key s) (r_nonces r) /\ scalar_rejected (ss_key s) = false /\ scalar_rejected sk = false /\
    ss_prefix s = SCHNORR_PREFIX ++ compress pk ++ SCHNORR_SUFFIX ++ compress w /\
    sid <> 0 /\ In sid (r_ids r).

Lemma random_id : forall old ids i, session_id_new_random old ids = Some i -> i <> 0 /\ i <> old /\ In i ids.
Proof.
  induction ids as [|x ids IH]; intros i H; [discriminate|]. cbn in H. destruct ((x =? 0) || (x =? old)) eqn:E.
  - destruct (IH i H) as (A & B & C). split; [exact A|]. split; [exact B|]. right. exact C.
  - inv H. apply orb_false_iff in E as [E1 E2]. apply N.eqb_neq in E1, E2. split; [exact E1|]. split; [exact E2|]. left. reflexivity.
Qed.
Lemma sign_init_spec : forall E sk nonces hash key, schnorr_sign_init E sk nonces = Some (hash, key) ->
  exists pk w, e_mulG E sk = Some pk /\ e_mulG E key = Some w /\ In key nonces /\ scalar_rejected key = false /\ scalar_rejected sk = false /\
    hash = SCHNORR_PREFIX ++ compress pk ++ SCHNORR_SUFFIX ++ compress w.
Proof.
  intros E sk nonces hash key H. unfold schnorr_sign_init in H. revert nonces H. generalize MAX_ITERATIONS as n.
  induction n as [|n IH]; intros nonces H; [discriminate|]. cbn [schnorr_init_loop] in H.
  destruct (schnorr_round E sk (hd (repeat 0 32) nonces)) as [[h0 k0]|] eqn:Er.
  - inv H. unfold schnorr_round in Er. destruct (scalar_rejected sk) eqn:E1; [discriminate|].
    destruct (e_mulG E sk) as [pk|] eqn:E2; [|discriminate]. destruct (scalar_rejected (hd (repeat 0 32) nonces)) eqn:E3; [discriminate|].
    destruct (e_mulG E (hd (repeat 0 32) nonces)) as [w|] eqn:E4; [|discriminate]. injection Er as <- <-. exists pk, w. do 2 (split; [assumption || reflexivity|]). split.
    + destruct nonces; [discriminate E3|left; reflexivity].
    + auto.
  - destruct (IH _ H) as (pk & w & A & B & C & D & F & G). exists pk, w. do 2 (split; [assumption|]). split; [|auto].
    destruct nonces; [destruct C|right; exact C].
Qed.

Lemma path_at_shift : forall a l off, path_at (length a + off) (a ++ l) = path_at off l.
Proof.
  intros a l off. unfold path_at. rewrite num_skip by lia. replace (length a + off - length a)%nat with off by lia.
  apply map_ext. intro i. rewrite num_skip by lia. f_equal. lia.
Qed.
Lemma parse_sign_spec : forall b data net p tok, parse_sign_init b data = Ok (net, p, tok) ->
  net = start_network data /\ p = start_path data /\ (length p <= 10)%nat.
Proof.
  intros b data net p tok H. unfold parse_sign_init in H. destruct data as [|x l]; [discriminate|]. rewrite read_u8_cons in H. cbn [rd bind] in H.
  apply bind_ok in H as ([q rest] & Hp & H). pose proof (read_path_len _ _ _ Hp) as Hlen. apply read_path_spec in Hp. apply bind_ok in H as ([t l'] & Ht & H).
  unfold finished in H. destruct l'; [|discriminate]. injection H as <- <- <-. split; [|split; [|exact Hlen]].
  - unfold start_network. change (x :: l) with ([x] ++ l). rewrite num_head by reflexivity. unfold be_value. cbn. lia.
  - subst q. unfold start_path. change (x :: l) with ([x] ++ l). symmetry. apply (path_at_shift [x] l 0).
Qed.

(** ** The invariant *)

Definition sign_phase (E : env) (s : session) (body : list obs) (g : sign_ctx) (k : ui_kind) : Prop :=
  let d := description body in
  match sg_state g with
  | SG_INITIALIZED => d = s_empty /\ op_new s (sg_op g) /\ Forall (fun o => continuation INS_SIGN o = None /\ is_approval o = false) body
  | SG_APPROVED =>
      approved_in INS_SIGN (sg_session g) body /\
      match k with
      | U_STX_OUTPUT => exists h, wf E d h /\ op_tx E s d h (sg_op g) /\ waiting d (ss_path s)
      | U_STX_TX => exists h, wf E d h /\ op_final E s d h (sg_op g) /\ settled d (ss_path s) (sx_outputs d)
      | _ => streaming E s d (sg_op g)
      end
  end.
Definition sign_inv (E : env) (key : bytes) (tr : list obs) (st : state) : Prop :=
  st_key st = key /\
  match st_ctx st with
  | X_SIGN g => exists start body s, session_of INS_SIGN tr = Some (start, body) /\ sign_started E start s (sg_session g) /\
      Forall (keeps INS_SIGN (sg_session g)) body /\ sign_phase E s body g (st_ui st)
  | _ => True
  end.

Lemma sign_inv_quiet : forall E key tr st st' o, sign_inv E key tr st ->
  quiet INS_SIGN o -> (forall sid, keeps INS_SIGN sid o) ->
  st_key st' = st_key st -> st_ctx st' = st_ctx st -> (st_ui st' = st_ui st \/ (menu_ui (st_ui st) = true /\ menu_ui (st_ui st') = true)) ->
  sign_inv E key (tr ++ [o]) st'.
Proof.
  intros E key tr st st' o [Hk H] Q K Ek Ec Eu. split; [congruence|]. rewrite Ec. destruct (st_ctx st) as [|x|x|x|g]; try exact I.
  destruct H as (start & body & s & H1 & H2 & H3 & H4). exists start, (body ++ [o]), s.
  split; [rewrite session_snoc; destruct Q as [-> _]; rewrite H1; reflexivity|]. split; [exact H2|].
  split; [apply Forall_app; split; [exact H3|]; constructor; [apply K|constructor]|].
  unfold sign_phase in *. rewrite description_snoc, describe_quiet by assumption.
  destruct (sg_state g).
  - destruct H4 as (A & B & C). do 2 (split; [assumption|]). apply Forall_app. split; [exact C|].
    constructor; [|constructor]. destruct Q as (_ & Q). exact Q.
  - destruct H4 as [A B]. split; [apply approved_snoc; exact A|].
    destruct Eu as [-> | [E1 E2]]; [exact B|]. destruct (st_ui st), (st_ui st'); try discriminate; exact B.
Qed.

(** The session goes on with one more observation. *)
Lemma sign_inv_more : forall E key tr st st' o g g' start body s, st_key st = key -> st_key st' = key ->
  st_ctx st' = X_SIGN g' -> session_of INS_SIGN tr = Some (start, body) -> sign_started E start s (sg_session g) ->
  sg_session g' = sg_session g -> Forall (keeps INS_SIGN (sg_session g)) body -> is_start INS_SIGN o = false ->
  keeps INS_SIGN (sg_session g) o -> sign_phase E s (body ++ [o]) g' (st_ui st') ->
  sign_inv E key (tr ++ [o]) st'.
Proof.
  intros E key tr st st' o g g' start body s Hk Hk' Hx Hs Hst Hsid Hb Ho Hko Hp. split; [exact Hk'|]. rewrite Hx.
  exists start, (body ++ [o]), s. rewrite session_snoc, Ho, Hs, Hsid.
  do 2 (split; [reflexivity || assumption|]). split; [|exact Hp]. apply Forall_app. split; [assumption|]. constructor; [assumption|constructor].
Qed.

Lemma cont_sign : forall sub p2 data r outs, sub <> 1 -> accepted outs = true ->
  continuation INS_SIGN (Apdu CLA INS_SIGN sub p2 data r, outs) = Some (sub, data) /\
  is_start INS_SIGN (Apdu CLA INS_SIGN sub p2 data r, outs) = false.
Proof.
  intros sub p2 data r outs H A. apply N.eqb_neq in H. unfold continuation, is_start. rewrite H, A. split; reflexivity.
Qed.

Lemma sign_inv_holds : forall E key tr st, env_ok E -> history E key tr st -> sign_inv E key tr st.
Proof.
  intros E key tr st Henv H. revert tr st H. apply history_ind_move; [split; [reflexivity|exact I]|].
  intros tr st e outs st' Hh Sh IH Hev M Hd _.
  destruct M; try (exfalso; apply Hd; left; reflexivity);
    try (split; [apply IH|]; cbn; exact I).
  - eapply sign_inv_quiet; eauto; [eapply refused_quiet; eauto|intro; eapply refused_keeps; eauto].
  - eapply sign_inv_quiet; eauto; [apply other_quiet; discriminate|]. intro. right. left. split; [auto|eauto].
  - eapply sign_inv_quiet; eauto; [apply other_quiet; discriminate|]. intro. right. left. split; [auto|eauto].
  - eapply sign_inv_quiet; eauto; [apply not_accepted_quiet; reflexivity|]. intro sid.
    destruct e; cbn [keeps]; try (intros ? ? []; fail); exfalso; [eapply H; reflexivity|congruence].
  - eapply sign_inv_quiet; eauto; [apply not_accepted_quiet; reflexivity| |]. { intros sid b s []. } right. rewrite H. auto.
  - eapply sign_inv_quiet; eauto; [apply not_accepted_quiet; reflexivity| |]. { intros sid b s []. } right. rewrite H. auto.
  - destruct b; (split; [apply IH|exact I]).
  - destruct b; (split; [apply IH|exact I]).
  - split; [apply IH|]. rewrite H1. exact I.
  - destruct b; (split; [apply IH|exact I]).
  - (* start *)
    split; [apply IH|]. cbn [st_ctx show set_ctx].
    set (o := (Apdu CLA INS_SIGN 1 p2 data r, [OShow U_STX_APPROVE f []])) in *.
    apply shape_show_token in H4. unfold p2pk_init in H2.
    destruct (ergo_path_validate p V_ADDRESS_GE5) eqn:Ev; [|discriminate]. destruct (Address.network_id_is_supported net) eqn:En; [|discriminate].
    cbn [negb] in H2. destruct (e_derive E p) as [[sk ch]|] eqn:Ed; [|discriminate].
    destruct (schnorr_sign_init E sk (r_nonces r)) as [[hash k]|] eqn:Es; [|discriminate]. injection H2 as <-.
    apply sign_init_spec in Es as (pk & w & A1 & A2 & A3 & A4 & A5 & A6).
    apply parse_sign_spec in H1 as (-> & -> & Hlen). apply random_id in H3 as (R1 & _ & R2).
    exists o, [], (mk_ses k (start_path data) hash (start_network data)).
    split; [rewrite session_snoc; reflexivity|]. split.
    + exists p2, data, r, f, sk, ch, pk, w. cbn [ss_path ss_network ss_key ss_prefix sg_session].
      do 16 (split; [assumption || reflexivity|]). assumption.
    + split; [constructor|]. unfold sign_phase. cbn [sg_state sg_op]. split; [reflexivity|]. split; [|constructor].
      subst op'. unfold op_new, op_fixed. cbn. do 4 (split; [auto|]). eauto.
  - (* a command without a screen *)
    destruct IH as [Hk IH]. rewrite H1 in IH. destruct IH as (start & body & s & I1 & I2 & I3 & I4).
    unfold sign_phase in I4. rewrite H2 in I4. destruct I4 as [I4 I5].
    assert (St : streaming E s (description body) (sg_op g)).
    { pose proof (shape_idle _ Sh H) as Hm. destruct (st_ui st); try discriminate; exact I5. }
    destruct Hev as (_ & _ & _ & _ & Hb & Hl & _).
    assert (Ha : a <> A_CONFIRM) by (destruct H6 as [-> | [-> _]]; discriminate).
    assert (Hl' : blen data <= 255) by (unfold blen; lia).
    destruct (exec_ok E s (st_key st) (description body) (sg_op g) sub data op a Henv Hb Hl' St H5 Ha) as (_ & X1 & X2).
    destruct (cont_sign sub (sg_session g) data r [OResp [] SW_OK] H3 eq_refl) as [C1 C2].
    eapply (sign_inv_more E key tr st _ _ g (mk_sign (sg_state g) (sg_session g) op)); eauto.
    + left. rewrite C1. auto.
    + unfold sign_phase. cbn [sg_state sg_op sg_session]. rewrite H2. split; [apply approved_snoc; exact I4|].
      rewrite description_snoc. unfold describe. rewrite C1. cbn [snd shows_output existsb].
      assert (Z : streaming E s (describe_cmd (description body) sub data) op).
      { destruct H6 as [Ea | [Ea Hsh]]; [apply X1; exact Ea|]. destruct (X2 Ea) as (h & W & T & F & Ne).
        right. exists h. split; [exact W|]. split; [exact T|].
        destruct (snoc_cases _ (sx_outputs (describe_cmd (description body) sub data))) as [En|(pre & x & En)]; [contradiction|].
        assert (Hs : so_shown x = false) by (destruct (F pre x En) as (_ & ? & _); assumption).
        rewrite (should_show_ok E s _ h op pre x W T En Hs) in Hsh. eapply fresh_silent; eauto. congruence. }
      pose proof (shape_idle _ Sh H) as Hm. cbn [st_ui set_ctx]. destruct (st_ui st); try discriminate; exact Z.
  - (* an output is shown *)
    destruct IH as [Hk IH]. rewrite H1 in IH. destruct IH as (start & body & s & I1 & I2 & I3 & I4).
    unfold sign_phase in I4. rewrite H2 in I4. destruct I4 as [I4 I5].
    assert (St : streaming E s (description body) (sg_op g)).
    { pose proof (shape_idle _ Sh H) as Hm. destruct (st_ui st); try discriminate; exact I5. }
    destruct Hev as (_ & _ & _ & _ & Hb & Hl & _).
    assert (Hl' : blen data <= 255) by (unfold blen; lia).
    destruct (exec_ok E s (st_key st) (description body) (sg_op g) sub data op A_OUTPUT Henv Hb Hl' St H5) as (_ & _ & X2); [discriminate|].
    set (outs := [OShow U_STX_OUTPUT f (pages_of E U_STX_OUTPUT (sg_put g op') (dy_count d))]).
    destruct (cont_sign sub (sg_session g) data r outs H3 eq_refl) as [C1 C2].
    eapply (sign_inv_more E key tr st _ _ g (mk_sign (sg_state g) (sg_session g) op')); eauto.
    + left. rewrite C1. auto.
    + unfold sign_phase. cbn [sg_state sg_op sg_session]. rewrite H2. split; [apply approved_snoc; exact I4|].
      rewrite description_snoc. unfold describe. rewrite C1. cbn [snd outs shows_output existsb orb].
      destruct (X2 eq_refl) as (h & W & T & F & Ne). exists h.
      destruct (snoc_cases _ (sx_outputs (describe_cmd (description body) sub data))) as [En|(pre & x & En)]; [contradiction|].
      assert (Hs : so_shown x = false) by (destruct (F pre x En) as (_ & ? & _); assumption).
      rewrite (should_show_ok E s _ h op pre x W T En Hs) in H6. injection H6 as H6.
      destruct (show_ok E s _ h op pre x W T En F H6) as (W' & T' & Wt).
      split; [exact W'|]. split; [|exact Wt].
      apply shape_show_output in H7 as (t & oi & U1 & U2 & ->). unfold op_relast in T'. rewrite U1, U2 in T'. exact T'.
  - (* the final confirmation *)
    destruct IH as [Hk IH]. rewrite H1 in IH. destruct IH as (start & body & s & I1 & I2 & I3 & I4).
    unfold sign_phase in I4. rewrite H2 in I4. destruct I4 as [I4 I5].
    assert (St : streaming E s (description body) (sg_op g)).
    { pose proof (shape_idle _ Sh H) as Hm. destruct (st_ui st); try discriminate; exact I5. }
    set (outs := [OShow U_STX_TX f (pages_of E U_STX_TX (sg_put g op') (dy_count d))]).
    destruct (cont_sign 0x20 (sg_session g) data r outs) as [C1 C2]; [discriminate|reflexivity|].
    eapply (sign_inv_more E key tr st _ _ g (mk_sign (sg_state g) (sg_session g) op')); eauto.
    + left. rewrite C1. auto.
    + unfold sign_phase. cbn [sg_state sg_op sg_session]. rewrite H2. split; [apply approved_snoc; exact I4|].
      rewrite description_snoc. unfold describe. rewrite C1. cbn [snd outs shows_output existsb orb].
      assert (Hst : op_state_of (sg_op g) <> OP_INITIALIZED).
      { intro K. unfold p2pk_show_confirm_screen in H4. rewrite K in H4. discriminate. }
      destruct (streaming_tx' _ _ _ _ St Hst) as (h & W & T & Se). exists h.
      destruct (confirm_ok E s (description body) h (sg_op g) f d op' T H4) as (Fi & _ & _).
      split; [exact W|]. split; [exact Fi|exact Se].
  - (* the start is approved *)
    destruct IH as [Hk IH]. rewrite H0 in IH. destruct IH as (start & body & s & I1 & I2 & I3 & I4).
    assert (Hg : sg_state g = SG_INITIALIZED).
    { unfold shape in Sh. rewrite H0 in Sh. destruct Sh as [_ Sh]. destruct (sg_state g); [reflexivity|].
      rewrite H in Sh. destruct Sh as [[_ K]|[(_ & K & _)|[_ K]]]; discriminate. }
    unfold sign_phase in I4. rewrite Hg in I4. destruct I4 as (D & Op & Fo).
    eapply (sign_inv_more E key tr st _ _ g (mk_sign SG_APPROVED (sg_session g) (sg_op g))); eauto.
    + destruct H1 as [-> | ->]; reflexivity.
    + destruct H1 as [-> | ->]; cbn [keeps]; intros b z [K|[]]; congruence.
    + unfold sign_phase. cbn [sg_state sg_op sg_session]. split.
      * exists body, e, []. split; [reflexivity|]. split; [exact H1|exact Fo].
      * left. rewrite description_snoc. unfold describe. split; [|exact Op]. destruct H1 as [-> | ->]; cbn; rewrite D; reflexivity.
  - (* an output is approved *)
    destruct IH as [Hk IH]. rewrite H0 in IH. destruct IH as (start & body & s & I1 & I2 & I3 & I4).
    assert (Hg : sg_state g = SG_APPROVED).
    { unfold shape in Sh. rewrite H0 in Sh. destruct Sh as [_ Sh]. destruct (sg_state g); [|reflexivity].
      rewrite H in Sh. destruct Sh as (_ & K & _). discriminate. }
    unfold sign_phase in I4. rewrite Hg, H in I4. destruct I4 as (Ap & h & W & T & Wt).
    eapply (sign_inv_more E key tr st _ _ g (mk_sign (sg_state g) (sg_session g) _)); try reflexivity; eauto; try reflexivity.
    + cbn [keeps]; intros b z [K|[]]; congruence.
    + unfold sign_phase. cbn [sg_state sg_op sg_session]. rewrite Hg. split; [apply approved_snoc; exact Ap|].
      right. rewrite description_snoc. unfold describe. cbn [continuation is_approval accepted existsb success orb].
      exists h. apply (approve_output_ok E s (description body) h (sg_op g) W T Wt t o H1 H2).
  - eapply sign_inv_quiet; eauto; [destruct H0 as [[-> _]|[-> _]]; apply not_accepted_quiet; reflexivity|].
    intros sid. destruct H0 as [[-> _]|[-> _]]; intros b z [].
  - eapply sign_inv_quiet; eauto; [destruct H0 as [[-> _]|[-> _]]; apply not_accepted_quiet; reflexivity|].
    intros sid. destruct H0 as [[-> _]|[-> _]]; intros b z [K|[]]; discriminate.
  - eapply sign_inv_quiet; eauto; [destruct H0 as [[-> _]|[-> _]]; apply not_accepted_quiet; reflexivity|].
    intros sid. destruct H0 as [[-> _]|[-> _]]; intros b z [K|[]]; discriminate.
Qed.
