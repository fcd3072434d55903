(** The session key, the session ids and the random numbers. *)
From Coq Require Import String.
From Verif Require Import Lib Env Bip32 Base58 Address ErgoTree Schnorr TxTable TxBox TxFull Amounts OutputInfo InputFrame UiFlow P2pkOp App
  SpecText SpecTree SpecTrace SpecTx SpecApdu SpecScreen SpecDispatch SpecRequest SpecStart SpecSeed SpecChance Base58Proofs TreeProofs SignedProofs Moves DispatchProofs RequestProofs StartAccept BlindProofs SeedProofs SignInput TraceAttest TraceScreen.

#[local] Arguments N.eqb : simpl never.
#[local] Arguments N.ltb : simpl never.
#[local] Arguments N.leb : simpl never.
#[local] Arguments N.sub : simpl never.
#[local] Arguments blen : simpl never.

(** ** Renaming and another key *)
Lemma in_last : forall (tr : list obs) o, In o (tr ++ [o]).
Proof. intros tr o. apply in_or_app. right. left. reflexivity. Qed.

Section Rename.
  Variable E : env.
  Variable h : bytes -> bytes -> bytes.
  Variable key' : bytes.
  Variable f : N -> N.
  Hypothesis Ok1 : env_ok E.
  Hypothesis Zero : f 0 = 0.
  Hypothesis Inj : forall i j, f i = f j -> i = j.
  Definition E2 : env := with_tags E h.

  Definition rx (c : ctx) : ctx :=
    match c with
    | X_ATTEST a => X_ATTEST (mk_attest (at_state a) (f (at_session a)) (at_id a) (at_index a) (at_box a) (at_hash a) (at_tokens a) (at_token a))
    | X_SIGN g => X_SIGN (mk_sign (sg_state g) (f (sg_session g)) (sg_op g))
    | c => c
    end.
  Definition rs (st : state) : state :=
    mk_state (st_connected st) key' (st_cmd st) (st_busy st) (rx (st_ctx st)) (st_ui st) (st_flow st) (st_dyn st).
  Definition ro (g : bool) (o : output) : output :=
    match o with OResp [i] SW_OK => if g then OResp [f i] SW_OK else o | _ => o end.
  Definition rr (g : bool) (x : result) : result := (rs (fst x), map (ro g) (snd x)).

  Lemma ro_no : forall l, map (ro false) l = l.
  Proof. induction l as [|o l IH]; [reflexivity|]. cbn [map]. rewrite IH. f_equal. destruct o as [[|i [|j b]] []| | | |]; reflexivity. Qed.
  Lemma ro_resp : forall g s, ro g (resp s) = resp s.
  Proof. intros g []; reflexivity. Qed.
  Lemma rr_err : forall g st s, rr g (handler_err st s) = handler_err (rs st) s.
  Proof. intros g st s. unfold handler_err, rr. cbn [fst snd map]. rewrite ro_resp. reflexivity. Qed.
  Ltac done := first [reflexivity | symmetry; apply rr_err].

  Lemma ids : forall l, session_id_new_random 0 (map f l) = option_map f (session_id_new_random 0 l).
  Proof.
    induction l as [|i l IH]; [reflexivity|]. cbn [map session_id_new_random]. destruct (N.eqb_spec i 0) as [->|K]; cbn [orb].
    - rewrite Zero, N.eqb_refl. exact IH.
    - destruct (N.eqb_spec (f i) 0) as [Z|Z]; [exfalso; apply K, Inj; congruence|]. reflexivity.
  Qed.
  Lemma eqb_f : forall i j, (f i =? f j) = (i =? j).
  Proof. intros i j. destruct (N.eqb_spec i j) as [->|K]; [apply N.eqb_refl|]. apply N.eqb_neq. intro Z. apply K, Inj, Z. Qed.
  Lemma eqb_0 : forall i, (f i =? 0) = (i =? 0).
  Proof. intro i. rewrite <- Zero at 1. apply eqb_f. Qed.

  Lemma r_epk : forall st data t, handler_epk E2 (rs st) data t = rr false (handler_epk E st data t).
  Proof.
    intros st data t. unfold handler_epk. change (st_busy (rs st)) with (st_busy st). destruct (st_busy st); [done|]. cbv zeta.
    destruct (parse_epk t data) as [[p token]|s]; [|done]. destruct (negb (ergo_path_validate p V_ACCOUNT_GE3)); [done|].
    change (generate_public_key E2 p) with (generate_public_key E p). destruct (generate_public_key E p) as [[pk ch]|]; [|done].
    change (st_connected (set_command (rs st) CMD_EPK)) with (st_connected (set_command st CMD_EPK)).
    destruct (is_known_application _ _); [unfold rr; rewrite ro_no; reflexivity|].
    destruct (ui_bip32_path_screen p (str "Path") 60 false) as [s|]; [|done].
    destruct (ui_approve_reject_screens _) as [g|]; [|done]. destruct (ui_display_screens g); done.
  Qed.
  Lemma r_da : forall st data d t, handler_da E2 (rs st) data d t = rr false (handler_da E st data d t).
  Proof.
    intros st data d t. unfold handler_da. change (st_busy (rs st)) with (st_busy st). destruct (st_busy st); [done|]. cbv zeta.
    destruct (parse_da t data) as [[[n p] token]|s]; [|done]. destruct (negb (ergo_path_validate p V_ADDRESS_GE5)); [done|].
    change (generate_public_key E2 p) with (generate_public_key E p). destruct (generate_public_key E p) as [[pk ch]|]; [|done].
    change (e_blake E2) with (e_blake E). destruct (ergo_address_from_pubkey (e_blake E) n pk) as [a|]; [|done].
    change (st_connected (set_command (rs st) CMD_DA)) with (st_connected (set_command st CMD_DA)).
    destruct (negb d && is_known_application token (st_connected (set_command st CMD_DA))); [unfold rr; rewrite ro_no; reflexivity|].
    destruct (da_screens (negb d) token p a) as [g|s]; [|done]. destruct (ui_display_screens g); done.
  Qed.
  Lemma r_attest_init : forall st data t r, attest_init (rs st) data t (mk_rnd (r_nonces r) (map f (r_ids r))) = rr true (attest_init st data t r).
  Proof.
    intros st data t r. unfold attest_init. destruct (parse_attest_init t data) as [a|s]; [|done]. destruct (box_init _ _ _ _ _ _ _) as [x b].
    destruct (negb (res_pass x)); [done|]. cbn [r_ids]. rewrite ids. destruct (session_id_new_random 0 (r_ids r)) as [i|]; cbn [option_map]; [|done].
    change (st_connected (rs st)) with (st_connected st). cbv zeta. destruct (is_known_application (st_connected st) (ap_token a)); [done|].
    destruct (attest_screens (ap_token a)) as [g|]; [|done]. destruct (ui_display_screens g); done.
  Qed.
  Definition ra (a : attest_ctx) : attest_ctx := mk_attest (at_state a) (f (at_session a)) (at_id a) (at_index a) (at_box a) (at_hash a) (at_tokens a) (at_token a).
  Lemma r_box_call : forall st c call, attest_box_call E2 (rs st) (ra c) call = rr false (attest_box_call E st c call).
  Proof.
    intros st c call. unfold attest_box_call. cbn [at_state ra]. destruct (at_state c); try done. change (attest_bs (ra c)) with (attest_bs c).
    destruct (call (attest_bs c)) as [x b]. destruct x; try done. unfold check_box_finished.
    change (at_box (attest_put (ra c) b)) with (at_box (attest_put c b)). destruct (bx_state (at_box (attest_put c b))); try done.
    change (e_blake E2) with (e_blake E). change (attest_bs (attest_put (ra c) b)) with (attest_bs (attest_put c b)).
    change (at_id (attest_put (ra c) b)) with (at_id (attest_put c b)). change (at_index (attest_put (ra c) b)) with (at_index (attest_put c b)).
    destruct (box_id_hash _ _ _ _) as [[x b'] id]. destruct x; done.
  Qed.
  Lemma r_frame : forall st c data p2 r,
    (forall m, frame_content (Apdu CLA INS_ATTEST 5 p2 data r, snd (attest_get_frame E st c data)) m -> firstn 16 (h key' m) = firstn 16 (e_hmac E (st_key st) m)) ->
    attest_get_frame E2 (rs st) (ra c) data = rr false (attest_get_frame E st c data).
  Proof.
    intros st c data p2 r K. unfold attest_get_frame in *. cbn [at_state at_tokens ra at_id at_box]. destruct (at_state c); try done.
    destruct (bind _ _) as [i|s]; [|done]. destruct (get_frames_count (blen (at_tokens c)) <=? i); [done|].
    unfold rr. rewrite ro_no. cbn [fst snd]. f_equal. change (st_key (rs st)) with key'. change (e_hmac E2) with h. cbn [snd] in K. unfold attested_frame in *.
    do 2 f_equal. f_equal. apply K. constructor. change FRAME_SIGNATURE_LEN with 16%nat. rewrite firstn_length, (ok_hmac_len E Ok1). reflexivity.
  Qed.
  Lemma r_handler_attest : forall st data p1 p2 r,
    (forall m, p1 = 5 -> frame_content (Apdu CLA INS_ATTEST p1 p2 data r, snd (handler_attest E st data p1 p2 r)) m -> firstn 16 (h key' m) = firstn 16 (e_hmac E (st_key st) m)) ->
    handler_attest E2 (rs st) data p1 (if negb (p1 =? 1) then f p2 else p2) (mk_rnd (r_nonces r) (map f (r_ids r))) = rr (p1 =? 1) (handler_attest E st data p1 p2 r).
  Proof.
    intros st data p1 p2 r K.
    assert (Ses : forall k1 k2 g, (forall c, st_cmd st = CMD_ATTEST -> st_ctx st = X_ATTEST c -> p2 = at_session c -> k1 (ra c) = rr g (k2 c)) ->
      match st_cmd (rs st) with CMD_ATTEST => match st_ctx (rs st) with X_ATTEST c => if f p2 =? at_session c then k1 c else handler_err (rs st) SW_BAD_SESSION_ID | _ => handler_err (rs st) SW_UB end
                              | _ => handler_err (rs st) SW_BAD_STATE end =
      rr g (match st_cmd st with CMD_ATTEST => match st_ctx st with X_ATTEST c => if p2 =? at_session c then k2 c else handler_err st SW_BAD_SESSION_ID | _ => handler_err st SW_UB end
                              | _ => handler_err st SW_BAD_STATE end)).
    { intros k1 k2 g Kk. change (st_cmd (rs st)) with (st_cmd st). change (st_ctx (rs st)) with (rx (st_ctx st)). destruct (st_cmd st); try done.
      destruct (st_ctx st) as [| | |c|]; cbn [rx]; try done. cbn [at_session]. rewrite eqb_f. destruct (N.eqb_spec p2 (at_session c)) as [Q|Q]; [|done].
      apply (Kk c); auto. }
    unfold handler_attest. change (st_busy (rs st)) with (st_busy st). destruct (st_busy st) eqn:B; [done|].
    destruct p1 as [|p]; [done|].
    repeat match goal with |- context [match ?n with _ => _ end] => lazymatch n with p => destruct n | _ => match type of n with positive => destruct n end end end;
      first [done | apply Ses; intros; apply r_box_call | idtac].
    - apply Ses. intros c Hc Hx Hp. apply (r_frame st c data p2 r). intros m Hm. apply K; [reflexivity|]. unfold handler_attest. rewrite B, Hc, Hx, <- Hp, N.eqb_refl. exact Hm.
    - change (negb (1 =? 1)) with false. cbn [negb]. destruct (negb (p2 =? 1) && negb (p2 =? 2)); [done|]. apply (r_attest_init (set_command st CMD_ATTEST)).
  Qed.
  (** Signing. *)
  Lemma r_loop : forall s n l, schnorr_init_loop E2 s n l = schnorr_init_loop E s n l.
  Proof.
    intros s n. induction n as [|n IH]; intro l; cbn [schnorr_init_loop]; [reflexivity|]. rewrite IH. reflexivity.
  Qed.
  Lemma r_init : forall l p n, p2pk_init E2 l p n = p2pk_init E l p n.
  Proof.
    intros l p n. unfold p2pk_init. change (e_derive E2) with (e_derive E). destruct (e_derive E p) as [[s c]|]; [|reflexivity]. unfold schnorr_sign_init. rewrite r_loop. reflexivity.
  Qed.
  Lemma r_sign_init : forall st data t r g, sign_init E2 (rs st) data t (mk_rnd (r_nonces r) (map f (r_ids r))) = rr g (sign_init E st data t r).
  Proof.
    intros st data t r g. unfold sign_init. destruct (parse_sign_init t data) as [[[n p] token]|s]; [|done]. cbn [r_nonces r_ids].
    rewrite r_init. destruct (p2pk_init E (r_nonces r) p n) as [op|s]; [|done].
    rewrite ids. destruct (session_id_new_random 0 (r_ids r)) as [i|]; cbn [option_map]; [|reflexivity].
    change (st_connected (rs st)) with (st_connected st). destruct (p2pk_show_token_and_path op token _) as [[fl q]|s]; [|done]. reflexivity.
  Qed.
  Lemma r_parse : forall key data, bytes_ok data = true -> firstn 16 (h key' (tagged_part data)) = firstn 16 (e_hmac E key (tagged_part data)) ->
    parse_input_frame E2 key' data = parse_input_frame E key data.
  Proof.
    intros key data Hok K. unfold parse_input_frame. cbv zeta. destruct (N.eqb_spec (input_frame_data_length data) 0) as [Z|Z]; [reflexivity|].
    assert (Q : firstn (N.to_nat (input_frame_data_length data)) data = tagged_part data).
    { unfold input_frame_data_length in *. destruct (N.ltb_spec (blen data) FRAME_MIN_SIZE) as [L|L]; [congruence|]. cbv zeta in *.
      destruct (blen data <? _); [congruence|]. unfold tagged_part. rewrite num1_nth by (change FRAME_MIN_SIZE with 59 in L; unfold blen in L; lia). reflexivity. }
    rewrite Q. change (e_hmac E2) with h. change FRAME_SIGNATURE_LEN with 16%nat in *. rewrite K. reflexivity.
  Qed.
  Lemma r_exec : forall key op sub data, bytes_ok data = true -> (sub = 0x12 -> firstn 16 (h key' (tagged_part data)) = firstn 16 (e_hmac E key (tagged_part data))) ->
    sign_exec E2 key' op sub data = sign_exec E key op sub data.
  Proof.
    intros key op sub data Hok K. destruct (N.eqb_spec sub 0x12) as [->|Q].
    - unfold sign_exec. rewrite (r_parse key data Hok (K eq_refl)). reflexivity.
    - unfold sign_exec. destruct sub as [|p]; [reflexivity|].
      repeat match goal with |- context [match ?n with _ => _ end] => lazymatch n with p => destruct n | _ => match type of n with positive => destruct n end end end;
        first [reflexivity | exfalso; apply Q; reflexivity].
  Qed.
  Definition rg (g : sign_ctx) : sign_ctx := mk_sign (sg_state g) (f (sg_session g)) (sg_op g).
  Lemma r_page : forall k c i, page_of E2 k (rx c) i = page_of E k c i.
  Proof. intros k c i. unfold page_of. destruct k, c; reflexivity. Qed.
  Lemma r_dynamic : forall st k fl d c g, show_dynamic E2 (rs st) k fl d (rx c) = rr g (show_dynamic E st k fl d c).
  Proof.
    intros st k fl d c g. unfold show_dynamic, rr. cbn [fst snd map ro]. f_equal. do 2 f_equal. unfold pages_of. apply map_ext. intro i. apply r_page.
  Qed.
  Lemma r_if_needed : forall st g op b, show_output_screen_if_needed E2 (rs st) (rg g) op = rr b (show_output_screen_if_needed E st g op).
  Proof.
    intros st g op b. unfold show_output_screen_if_needed. cbv zeta. destruct (p2pk_should_show_output op) as [[]|]; [| |done].
    - destruct (p2pk_show_output_confirm_screen op) as [[[fl d] q]|s]; [|done]. apply (r_dynamic st U_STX_OUTPUT fl d (X_SIGN (mk_sign (sg_state g) (sg_session g) q))).
    - unfold rr. cbn [fst snd map]. rewrite ro_resp. reflexivity.
  Qed.
  Lemma r_command : forall st g sub data b, bytes_ok data = true ->
    (sub = 0x12 -> firstn 16 (h key' (tagged_part data)) = firstn 16 (e_hmac E (st_key st) (tagged_part data))) ->
    sign_command E2 (rs st) (rg g) sub data = rr b (sign_command E st g sub data).
  Proof.
    intros st g sub data b Hok K. unfold sign_command. cbn [sg_state sg_op sg_session rg]. destruct (sg_state g); try done.
    change (st_key (rs st)) with key'. rewrite (r_exec (st_key st) (sg_op g) sub data Hok K).
    destruct (sign_exec E (st_key st) (sg_op g) sub data) as [[[op|s] []]|]; try done.
    - apply r_if_needed.
    - destruct (p2pk_show_confirm_screen op) as [[[fl d] q]|s]; [|done]. apply (r_dynamic st U_STX_TX fl d (X_SIGN (mk_sign SG_APPROVED (sg_session g) q))).
  Qed.
  Lemma r_handler_sign : forall st data p1 p2 r b, bytes_ok data = true ->
    (p1 = 0x12 -> firstn 16 (h key' (tagged_part data)) = firstn 16 (e_hmac E (st_key st) (tagged_part data))) ->
    handler_sign E2 (rs st) data p1 (if negb (p1 =? 1) then f p2 else p2) (mk_rnd (r_nonces r) (map f (r_ids r))) = rr b (handler_sign E st data p1 p2 r).
  Proof.
    intros st data p1 p2 r b Hok K. unfold handler_sign. change (st_busy (rs st)) with (st_busy st). destruct (st_busy st); [reflexivity|].
    destruct (p1 =? 1); cbn [negb].
    - destruct (negb (p2 =? 1) && negb (p2 =? 2)); [reflexivity|]. apply (r_sign_init (set_command st CMD_SIGN)).
    - destruct (is_sign_subcommand p1); [|done]. change (st_cmd (rs st)) with (st_cmd st). destruct (st_cmd st); try done.
      change (st_ctx (rs st)) with (rx (st_ctx st)). destruct (st_ctx st) as [| | | |g]; cbn [rx]; try done. cbn [sg_session]. rewrite eqb_f.
      destruct (p2 =? sg_session g); [|done]. apply (r_command st g p1 data b Hok K).
  Qed.
  Lemma r_dispatch : forall st cla ins p1 p2 data r, bytes_ok data = true ->
    (forall m, frame_content (Apdu cla ins p1 p2 data r, snd (apdu_dispatcher E st cla ins p1 p2 data r)) m -> firstn 16 (h key' m) = firstn 16 (e_hmac E (st_key st) m)) ->
    apdu_dispatcher E2 (rs st) cla ins p1 (if in_session ins p1 then f p2 else p2) data (mk_rnd (r_nonces r) (map f (r_ids r))) =
    rr ((ins =? INS_ATTEST) && (p1 =? 1)) (apdu_dispatcher E st cla ins p1 p2 data r).
  Proof.
    intros st cla ins p1 p2 data r Hok K. assert (Cl : cla = CLA \/ (cla =? 0xE0) = false) by (unfold CLA; destruct (N.eqb_spec cla 0xE0); auto).
    destruct Cl as [-> | Cl]; [|unfold apdu_dispatcher; rewrite Cl; reflexivity].
    assert (Z : forall i, ((if negb (p1 =? 1) then f i else i) =? 0) = (i =? 0)) by (intro i; destruct (negb (p1 =? 1)); [apply eqb_0|reflexivity]).
    destruct (N.eqb_spec ins INS_ATTEST) as [->|Na].
    { unfold in_session. rewrite N.eqb_refl. cbn [orb andb]. unfold apdu_dispatcher in *. change (CLA =? 0xE0) with true in *. cbn [negb] in *. change INS_ATTEST with 0x20 in *. cbv beta iota in *.
      rewrite Z. destruct ((p1 =? 0) || (p2 =? 0)); [destruct (p1 =? 1); reflexivity|]. apply r_handler_attest. intros m _ Hm. apply K, Hm. }
    destruct (N.eqb_spec ins INS_SIGN) as [->|Ns].
    { unfold in_session. change (INS_SIGN =? INS_ATTEST) with false. rewrite N.eqb_refl. cbn [orb andb]. unfold apdu_dispatcher in *. change (CLA =? 0xE0) with true in *. cbn [negb] in *. change INS_SIGN with 0x21 in *. cbv beta iota in *.
      rewrite Z. destruct ((p1 =? 0) || (p2 =? 0)); [reflexivity|]. apply r_handler_sign; [exact Hok|]. intros ->. apply K. apply (content_presented p2 data r). }
    unfold in_session. rewrite (proj2 (N.eqb_neq _ _) Na), (proj2 (N.eqb_neq _ _) Ns). cbn [orb andb]. unfold apdu_dispatcher. change (CLA =? 0xE0) with true. cbn [negb]. clear K.
    unfold INS_ATTEST, INS_SIGN in Na, Ns. destruct ins as [|p]; [reflexivity|].
    repeat match goal with |- context [match ?n with _ => _ end] => lazymatch n with p => destruct n | _ => match type of n with positive => destruct n end end end;
      try reflexivity; try (exfalso; apply Na; reflexivity); try (exfalso; apply Ns; reflexivity);
      match goal with |- context [if ?b then _ else _] => destruct b; [reflexivity|] end; first [reflexivity | apply r_epk | apply r_da].
  Qed.

  (** The user. *)
  Definition id_given (st : state) : bool := match st_ui st with U_ATTEST | U_STX_APPROVE => true | _ => false end.
  Lemma r_action : forall st b, ui_action E2 (rs st) b = rr (id_given st) (ui_action E st b).
  Proof.
    intros st b. unfold ui_action, id_given. change (st_ui (rs st)) with (st_ui st). change (st_ctx (rs st)) with (rx (st_ctx st)).
    destruct (st_ui st); try reflexivity; destruct (st_ctx st) as [|c|c|c|g]; try reflexivity; cbn [rx].
    - unfold ui_action_epk, rr. destruct b; cbn [fst snd]; rewrite ro_no; reflexivity.
    - unfold ui_action_da, rr. destruct b; cbn [fst snd]; [destruct (da_send c); cbn [fst snd]|]; rewrite ro_no; reflexivity.
    - unfold ui_action_attest, rr. destruct b; reflexivity.
    - unfold ui_action_stx_approve, rr. cbn [sg_op sg_session]. destruct b; [destruct (op_union_of (sg_op g))|]; reflexivity.
    - unfold ui_action_stx_output, rr. cbn [sg_op sg_session sg_state]. destruct (op_union_of (sg_op g)); [|destruct (tx_output t); [destruct b|]|]; reflexivity.
    - unfold ui_action_stx_tx, rr. cbn [sg_op sg_session sg_state fst snd]. rewrite ro_no. destruct b; reflexivity.
  Qed.
  Lemma r_path_both : forall st, ui_path_both (rs st) = rr true (ui_path_both st).
  Proof.
    intros st. unfold ui_path_both. change (st_ui (rs st)) with (st_ui st). change (st_ctx (rs st)) with (rx (st_ctx st)).
    destruct (st_ui st); try reflexivity; destruct (st_ctx st) as [|c|c|c|g]; try reflexivity; cbn [rx].
    unfold ui_action_stx_approve, rr. cbn [sg_op sg_session]. destruct (op_union_of (sg_op g)); reflexivity.
  Qed.
  Lemma r_display : forall st x, display_dynamic E2 (rs st) x = rr false (display_dynamic E st x).
  Proof.
    intros st [d [i|]]; unfold display_dynamic; cbn [fst snd]; [|reflexivity].
    change (page_of E2 (st_ui (set_dyn (rs st) d)) (st_ctx (set_dyn (rs st) d)) i) with (page_of E2 (st_ui (set_dyn st d)) (rx (st_ctx (set_dyn st d))) i). rewrite r_page.
    destruct (page_of E _ _ i) as [[t b]|s]; [reflexivity|]. destruct s; reflexivity.
  Qed.
  Definition may_give (st : state) (e : event) : bool :=
    match e with
    | UiApprove | UiReject => id_given st
    | UiPathBoth => true
    | Apdu _ ins p1 _ _ _ => (ins =? INS_ATTEST) && (p1 =? 1)
    | _ => false
    end.
  Lemma r_step : forall st e, event_ok e ->
    (forall m, frame_content (e, snd (step E st e)) m -> firstn 16 (h key' m) = firstn 16 (e_hmac E (st_key st) m)) ->
    step E2 (rs st) (rename_event f e) = rr (may_give st e) (step E st e).
  Proof.
    intros st e Hev K. destruct e; cbn [rename_event step may_give].
    - destruct Hev as (_ & _ & _ & _ & Hok & _). apply r_dispatch; [exact Hok|exact K].
    - reflexivity.
    - apply r_action.
    - apply r_action.
    - apply r_path_both.
    - change (st_ui (rs st)) with (st_ui st). destruct (has_pages (st_ui st)); [apply (r_display st)|reflexivity].
    - change (st_ui (rs st)) with (st_ui st). destruct (has_pages (st_ui st)); [apply (r_display st)|reflexivity].
    - change (st_ui (rs st)) with (st_ui st). destruct (st_ui st); reflexivity.
    - change (st_ui (rs st)) with (st_ui st). destruct (st_ui st); reflexivity.
  Qed.

  Lemma ro_rename : forall key tr st e outs st', history E key tr st -> history E key (tr ++ [(e, outs)]) st' ->
    map (ro (may_give st e)) outs = map (rename_output f e) outs.
  Proof.
    intros key tr st e outs st' H H'. apply map_ext_in. intros o Ho. destruct o as [b w| | | |]; try reflexivity.
    destruct b as [|i [|j b]]; try (destruct w; reflexivity). destruct w; try reflexivity. cbn [ro rename_output].
    destruct (answer_size E key tr st' e outs [i] SW_OK Ok1 H' Ho) as [_ Sz]. specialize (Sz eq_refl). change (blen [i]) with 1 in Sz.
    assert (Q : may_give st e = may_give_id e); [|rewrite Q; reflexivity]. destruct e; try reflexivity.
    - cbn [may_give may_give_id answer_sizes] in *. destruct (screen_inv_holds E key tr st Ok1 H) as [_ Sc]. destruct (st_busy st).
      + destruct Sc as (q & pages & Sc & _). rewrite Sc in Sz. unfold id_given. destruct (st_ui st); try reflexivity; exfalso.
        1: destruct q; destruct Sz.
        1: destruct q; destruct Sz.
        1: destruct q; (destruct Sz as [Sz|[]]; discriminate Sz).
        1: { destruct q; try (destruct Sz; fail). destruct (p1 =? 1); (destruct Sz as [Sz|[]]; discriminate Sz). }
        1: destruct q; (destruct Sz as [Sz|[]]; discriminate Sz).
        destruct q; (destruct Sz as [Sz|[]]; discriminate Sz).
      + rewrite Sc in Sz. destruct Sz.
    - destruct Sz.
  Qed.
  Hypothesis Small : forall i, i < 256 -> f i < 256.
  Lemma renamed_ok : forall e, event_ok e -> event_ok (rename_event f e).
  Proof.
    intros e He. destruct e; try exact I. destruct He as (K1 & K2 & K3 & K4 & K5 & K6 & K7 & K8). cbn [rename_event event_ok r_nonces r_ids].
    do 3 (split; [assumption|]). split; [destruct (in_session ins p1); [apply Small|]; assumption|]. do 3 (split; [assumption|]).
    apply Forall_forall. intros x Hx. apply in_map_iff in Hx as (y & <- & Hy). apply Small. rewrite Forall_forall in K8. apply K8, Hy.
  Qed.
  Lemma history_rename : forall key tr st, history E key tr st ->
    (forall o m, In o tr -> frame_content o m -> firstn 16 (h key' m) = firstn 16 (e_hmac E key m)) ->
    history E2 key' (map (rename f) tr) (rs st).
  Proof.
    intros key tr st H. induction H as [|tr st e outs st1 H IH Hev Hs Hd]; intro K.
    - constructor.
    - assert (Hn : history E key (tr ++ [(e, outs)]) st1) by (econstructor; eassumption).
      assert (Ky : st_key st = key) by exact (proj1 (attest_inv_holds E key tr st Ok1 H)).
      pose proof (r_step st e Hev) as R. rewrite Hs in R. cbn [snd] in R. rewrite Ky in R.
      specialize (R (fun m Hm => K (e, outs) m (in_last tr (e, outs)) Hm)).
      unfold rr in R. cbn [fst snd] in R. rewrite (ro_rename key tr st e outs st1 H Hn) in R. rewrite map_app. cbn [map].
      change (rename f (e, outs)) with (rename_event f e, map (rename_output f e) outs).
      eapply history_step; [apply IH; intros o m Ho; apply K, in_or_app; left; exact Ho|exact (renamed_ok e Hev)|exact R|].
      intro Z. apply in_map_iff in Z as (x & Z & Hx). apply Hd. destruct x as [b w| | | |]; try discriminate Z; [|exact Hx].
      exfalso. destruct b as [|i [|j b]]; try discriminate Z; destruct w; try discriminate Z. cbn [rename_output] in Z. destruct (may_give_id e); discriminate Z.
  Qed.
End Rename.

Lemma rename_event_id : forall e, rename_event (fun i => i) e = e.
Proof. intros []; try reflexivity. unfold rename_event. rewrite map_id. destruct (in_session ins p1), r; reflexivity. Qed.
Lemma rename_id : forall tr, map (rename (fun i => i)) tr = tr.
Proof.
  induction tr as [|[e outs] tr IH]; [reflexivity|]. cbn [map]. rewrite IH. f_equal. unfold rename. cbn [fst snd]. rewrite rename_event_id. f_equal.
  induction outs as [|o l IHl]; [reflexivity|]. cbn [map]. rewrite IHl. f_equal. destruct o as [b w| | | |]; try reflexivity.
  destruct b as [|i [|j b]]; try (destruct w; reflexivity). destruct w; try reflexivity. cbn [rename_output]. destruct (may_give_id e); reflexivity.
Qed.
Lemma with_tags_same : forall E, with_tags E (e_hmac E) = E.
Proof. intros []. reflexivity. Qed.

Theorem key_only_tags : forall E hmac key key' tr st, env_ok E -> history E key tr st ->
  (forall o m, In o tr -> frame_content o m -> firstn 16 (hmac key' m) = firstn 16 (e_hmac E key m)) ->
  exists st', history (with_tags E hmac) key' tr st'.
Proof.
  intros E hm key key' tr st Henv H K. exists (rs key' (fun i => i) st). rewrite <- (rename_id tr).
  apply (history_rename E hm key' (fun i => i) Henv eq_refl (fun i j e => e) (fun i e => e) key tr st H K).
Qed.
Theorem ids_opaque : forall E key f tr st, env_ok E -> renaming f -> history E key tr st ->
  exists st', history E key (map (rename f) tr) st'.
Proof.
  intros E key f tr st Henv (Z & I & S) H. exists (rs key f st).
  pose proof (history_rename E (e_hmac E) key f Henv Z I S key tr st H) as R. unfold E2 in R. rewrite with_tags_same in R. apply R. reflexivity.
Qed.

(** ** Other random numbers *)
Lemma zeros_unique : forall x z z' (a b : list N), hd_error a <> Some x -> hd_error b <> Some x -> repeat x z ++ a = repeat x z' ++ b -> z = z' /\ a = b.
Proof.
  intros x. induction z as [|z IH]; intros [|z'] a b Ha Hb K; cbn [repeat app] in K.
  - auto.
  - subst a. exfalso. apply Ha. reflexivity.
  - subst b. exfalso. apply Hb. reflexivity.
  - injection K as K. destruct (IH z' a b Ha Hb K) as [-> ->]. auto.
Qed.
Lemma b58_snoc : forall l d, b58_value (l ++ [d]) = b58_value l * 58 + d.
Proof. intros l d. unfold b58_value. rewrite fold_left_app. reflexivity. Qed.
Lemma b58_pos : forall l, l <> [] -> hd 1 l <> 0 -> 0 < b58_value l.
Proof.
  intros l. induction l as [|d l IH] using rev_ind; intros Hn Hh; [congruence|]. rewrite b58_snoc. destruct l as [|y l].
  - cbn in Hh |- *. lia.
  - assert (0 < b58_value (y :: l)) by (apply IH; [discriminate|exact Hh]). lia.
Qed.
Lemma b58_unique : forall l l', Forall (fun d => d < 58) l -> Forall (fun d => d < 58) l' -> hd 1 l <> 0 -> hd 1 l' <> 0 -> b58_value l = b58_value l' -> l = l'.
Proof.
  intros l. induction l as [|d l IH] using rev_ind; intros l' F F' Hh Hh' K.
  - destruct l' as [|y l']; [reflexivity|]. pose proof (b58_pos (y :: l') ltac:(discriminate) Hh') as P. rewrite <- K in P. cbv in P. discriminate P.
  - destruct l' as [|y l' _] using rev_ind.
    { pose proof (b58_pos (l ++ [d]) ltac:(destruct l; discriminate) Hh) as P. rewrite K in P. cbv in P. discriminate P. }
    rewrite !b58_snoc in K. apply Forall_app in F as [F F1], F' as [F' F1']. inversion F1; subst. inversion F1'; subst.
    assert (d = y /\ b58_value l = b58_value l') as [-> Kv] by lia. f_equal. apply IH; auto.
    + destruct l; [discriminate|exact Hh].
    + destruct l'; [discriminate|exact Hh'].
Qed.
Lemma is_base58_unique : forall b t t', is_base58 b t -> is_base58 b t' -> t = t'.
Proof.
  intros b t t' (z & body & ds & -> & Hh & -> & Hd & Hdh & Hv) (z' & body' & ds' & K & Hh' & -> & Hd' & Hdh' & Hv').
  apply zeros_unique in K as [-> ->].
  - f_equal. f_equal. apply b58_unique; auto. congruence.
  - destruct body; [discriminate|]. cbn in *. congruence.
  - destruct body'; [discriminate|]. cbn in *. congruence.
Qed.

Lemma key_same : forall E p b b', exported_key E p b -> exported_key E p b' -> b = b'.
Proof. intros E p b b' (pk & ch & (s & w & D & M & ->) & ->) (pk' & ch' & (s' & w' & D' & M' & ->) & ->). congruence. Qed.
Lemma address_same : forall E n p b b', address_at E n p b -> address_at E n p b' -> b = b'.
Proof. intros E n p b b' (pk & ch & (s & w & D & M & ->) & ->) (pk' & ch' & (s' & w' & D' & M' & ->) & ->). congruence. Qed.
Lemma differ_same : forall E e o o', differ_by_seed E E e o o' -> o' = o \/ e = UiApprove /\ signing_answer o /\ signing_answer o'.
Proof.
  intros E e o o' H. destruct H.
  - auto.
  - left. f_equal. eapply key_same; eassumption.
  - left. f_equal. eapply address_same; eassumption.
  - left. assert (b' = b) by (eapply address_same; eassumption). subst b'. assert (t' = t) by (eapply is_base58_unique; eassumption). subst t'. reflexivity.
  - auto.
Qed.
Lemma with_seed_same : forall E, with_seed E (e_derive E) = E.
Proof. intros []. reflexivity. Qed.
Lemma same_paths_refl : forall E, same_paths E E.
Proof. intros E p. split; split; auto. Qed.
Lemma one_output : forall E key tr st, env_ok E -> history E key tr st -> Forall (fun o => (length (snd o) <= 1)%nat) tr.
Proof.
  intros E key tr st Henv H. induction H as [|tr st e outs st' H IH He Hs Hd]; [constructor|]. apply Forall_app. split; [exact IH|]. constructor; [|constructor].
  apply (proj1 (answers E key tr st' e outs Henv ltac:(econstructor; eassumption))).
Qed.
Theorem nonce_only_signature : forall E key tr st evs, env_ok E -> history E key tr st -> Forall event_ok evs -> Forall2 (other_chance E) (map fst tr) evs ->
  exists tr' st', history E key tr' st' /\ map fst tr' = evs /\ Forall2 same_but_signature tr tr'.
Proof.
  intros E key tr st evs Henv H Ev F. pose proof (with_seed_same E) as W.
  destruct (history_sim E (e_derive E)) with (key := key) (tr := tr) (st := st) (evs := evs) as (tr' & st' & H' & M & _ & F'); try assumption.
  { unfold E'. rewrite W. exact Henv. }
  { unfold E'. rewrite W. apply same_paths_refl. }
  unfold E' in H', F'. rewrite W in H', F'. exists tr', st'. split; [exact H'|]. split; [exact M|].
  pose proof (one_output E key tr st Henv H) as O. clear H H' M F Ev. induction F' as [|o o' l l' D F' IH]; [constructor|]. inversion O as [|? ? L O']; subst. constructor; [|exact (IH O')].
  unfold same_but_signature. destruct o as [e outs], o' as [e' outs']. cbn [fst snd] in *. destruct D as [|x x' r r' D D']; [left; reflexivity|].
  destruct r; [|cbn in L; lia]. inversion D'; subst. destruct (differ_same _ _ _ _ D) as [->|(-> & S1 & S2)]; [left; reflexivity|]. right. split; [reflexivity|]. exists x, x'. auto.
Qed.

Theorem no_frame_any_key : forall E hmac key key' tr st, env_ok E -> history E key tr st -> (forall o m, In o tr -> ~ frame_content o m) ->
  exists st', history (with_tags E hmac) key' tr st'.
Proof. intros E hm key key' tr st Henv H K. apply (key_only_tags E hm key key' tr st Henv H). intros o m Ho Hm. destruct (K o m Ho Hm). Qed.
