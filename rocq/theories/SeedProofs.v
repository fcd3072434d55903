(** Two devices that differ only in the seed behave alike. *)
From Coq Require Import String.
From Verif Require Import Lib Env Bip32 Base58 Address ErgoTree Schnorr TxTable TxBox TxFull Amounts OutputInfo InputFrame UiFlow P2pkOp App
  SpecText SpecTree SpecTrace SpecTx SpecApdu SpecRequest SpecStart SpecSeed SpecChance Base58Proofs TreeProofs SignedProofs Moves DispatchProofs RequestProofs StartAccept BlindProofs.

#[local] Arguments N.eqb : simpl never.
#[local] Arguments N.ltb : simpl never.
#[local] Arguments N.leb : simpl never.
#[local] Arguments N.sub : simpl never.
#[local] Arguments blen : simpl never.

Section Seed.
  Variable E : env.
  Variable D : list N -> option (bytes * bytes).
  Definition E' : env := with_seed E D.
  Hypothesis Ok1 : env_ok E.
  Hypothesis Ok2 : env_ok E'.
  Hypothesis Same : same_paths E E'.

  Inductive csim : ctx -> ctx -> Prop :=
  | cs_none : csim X_NONE X_NONE
  | cs_epk : forall t p ch pk ch' pk', generate_public_key E p = Some (pk, ch) -> generate_public_key E' p = Some (pk', ch') ->
      csim (X_EPK (mk_epk t ch pk)) (X_EPK (mk_epk t ch' pk'))
  | cs_da : forall t n p a a' b, address_at E n p a -> address_at E' n p a' -> csim (X_DA (mk_da t a b)) (X_DA (mk_da t a' b))
  | cs_attest : forall c, csim (X_ATTEST c) (X_ATTEST c)
  | cs_sign : forall s i op op', op_sim op op' -> signable E (op_path op) -> signable E' (op_path op) ->
      csim (X_SIGN (mk_sign s i op)) (X_SIGN (mk_sign s i op')).
  Definition ssim (st st' : state) : Prop :=
    exists x f, st' = mk_state (st_connected st) (st_key st) (st_cmd st) (st_busy st) x (st_ui st) f (st_dyn st) /\ csim (st_ctx st) x.
  Definition rsim (e : event) (x y : result) : Prop := ssim (fst x) (fst y) /\ Forall2 (differ_by_seed E E' e) (snd x) (snd y).

  Lemma ssim_ctx : forall st st' c c', ssim st st' -> csim c c' -> ssim (set_ctx st c) (set_ctx st' c').
  Proof. intros st st' c c' (x & f & -> & C) Hc. exists c', f. split; [reflexivity|exact Hc]. Qed.
  Lemma ssim_command : forall st st' c, ssim st st' -> ssim (set_command st c) (set_command st' c).
  Proof. intros st st' c (x & f & -> & C). exists X_NONE, f. split; [reflexivity|constructor]. Qed.
  Lemma ssim_busy : forall st st' b, ssim st st' -> ssim (set_busy st b) (set_busy st' b).
  Proof. intros st st' b (x & f & -> & C). exists x, f. split; [reflexivity|exact C]. Qed.
  Lemma ssim_connected : forall st st' i, ssim st st' -> ssim (set_connected st i) (set_connected st' i).
  Proof. intros st st' i (x & f & -> & C). exists x, f. split; [reflexivity|exact C]. Qed.
  Lemma ssim_dyn : forall st st' d, ssim st st' -> ssim (set_dyn st d) (set_dyn st' d).
  Proof. intros st st' d (x & f & -> & C). exists x, f. split; [reflexivity|exact C]. Qed.
  Lemma ssim_menu : forall st st', ssim st st' -> ssim (ui_menu_main st) (ui_menu_main st').
  Proof. intros st st' (x & f & -> & C). exists x, menu_cells. split; [reflexivity|exact C]. Qed.
  Lemma ssim_about : forall st st', ssim st st' -> ssim (ui_menu_about st) (ui_menu_about st').
  Proof. intros st st' (x & f & -> & C). exists x, about_cells. split; [reflexivity|exact C]. Qed.
  Lemma ssim_show : forall st st' k f f' d, ssim st st' -> ssim (show st k f d) (show st' k f' d).
  Proof. intros st st' k f f' d (x & g & -> & C). exists x, f'. split; [reflexivity|exact C]. Qed.
  Lemma ssim_over : forall st st' l, ssim st st' -> ssim (overwrite l st) (overwrite l st').
  Proof. intros st st' l (x & f & -> & C). eexists x, _. split; [reflexivity|exact C]. Qed.
  Lemma one_same : forall e o, Forall2 (differ_by_seed E E' e) [o] [o].
  Proof. intros. constructor; [constructor|constructor]. Qed.
  Lemma rsim_same : forall e st st' o, ssim st st' -> rsim e (st, o) (st', o).
  Proof. intros e st st' o H. split; [exact H|]. cbn [snd]. induction o; constructor; [constructor|assumption]. Qed.
  Lemma rsim_err : forall e st st' s, ssim st st' -> rsim e (handler_err st s) (handler_err st' s).
  Proof. intros. apply rsim_same, ssim_command. assumption. Qed.

  (** Keys. *)
  Lemma keys_sim : forall p, generate_public_key E p = None /\ generate_public_key E' p = None \/
    exists pk ch pk' ch', generate_public_key E p = Some (pk, ch) /\ generate_public_key E' p = Some (pk', ch').
  Proof.
    intro p. destruct (Same p) as [H _]. rewrite <- (derivable_iff _ _ Ok1), <- (derivable_iff _ _ Ok2) in H.
    destruct (generate_public_key E p) as [[pk ch]|] eqn:G1, (generate_public_key E' p) as [[pk' ch']|] eqn:G2.
    - right. eauto 10.
    - exfalso. destruct H as [H _]. destruct H as (x & y & K); [eauto|discriminate].
    - exfalso. destruct H as [_ H]. destruct H as (x & y & K); [eauto|discriminate].
    - left. auto.
  Qed.
  Lemma exported_sim : forall F p pk ch, env_ok F -> generate_public_key F p = Some (pk, ch) -> exported_key F p (epk_response pk ch).
  Proof. intros F p pk ch Ok G. destruct (key_at_gen _ _ _ _ Ok G) as [K _]. exists (compress pk), ch. auto. Qed.
  Lemma address_sim : forall F p pk ch n a, env_ok F -> generate_public_key F p = Some (pk, ch) -> ergo_address_from_pubkey (e_blake F) n pk = Some a ->
    address_at F n p a /\ bytes_ok a = true /\ length a = 38%nat.
  Proof.
    intros F p pk ch n a Ok G A. destruct (key_at_gen _ _ _ _ Ok G) as [K L]. destruct (gen_key_ok _ _ _ _ Ok G) as [_ B].
    split; [|exact (address_ok _ _ _ _ Ok L B A)]. apply address_gen in A as [_ ->]. exists (compress pk), ch. auto.
  Qed.

  Lemma epk_sim : forall e st st' data h, ssim st st' -> rsim e (handler_epk E st data h) (handler_epk E' st' data h).
  Proof.
    intros e st st' data h S. pose proof S as (x & f & Est & C). unfold handler_epk.
    replace (st_busy st') with (st_busy st) by (rewrite Est; reflexivity). destruct (st_busy st); [apply rsim_same, S|].
    pose proof (ssim_command _ _ CMD_EPK S) as S1. cbv zeta.
    replace (st_connected (set_command st' CMD_EPK)) with (st_connected (set_command st CMD_EPK)) by (rewrite Est; reflexivity).
    set (s1 := set_command st CMD_EPK) in *. set (s2 := set_command st' CMD_EPK) in *.
    destruct (parse_epk h data) as [[p token]|s]; [|apply rsim_err, S1].
    destruct (ergo_path_validate p V_ACCOUNT_GE3); cbn [negb]; [|apply rsim_err, S1].
    destruct (keys_sim p) as [[-> ->]|(pk & ch & pk' & ch' & G1 & G2)]; [apply rsim_err, S1|]. rewrite G1, G2.
    destruct (is_known_application token (st_connected s1)).
    { split; [apply ssim_command, S1|]. constructor; [|constructor]. apply differ_key with p; apply exported_sim; assumption. }
    destruct (ui_bip32_path_screen p (str "Path") 60 false) as [s|]; [|apply rsim_err, ssim_over, S1].
    destruct (ui_approve_reject_screens _) as [g|]; [|apply rsim_err, S1].
    assert (S2 : ssim (set_ctx s1 (X_EPK (mk_epk token ch pk))) (set_ctx s2 (X_EPK (mk_epk token ch' pk')))) by (apply ssim_ctx; [exact S1|apply cs_epk with p; assumption]).
    destruct (ui_display_screens g) as [g'|]; [|apply rsim_same, S2]. apply rsim_same, ssim_show, S2.
  Qed.

  (** The screens of an address. *)
  Lemma da_pair : forall send token p a a', bytes_ok a = true -> bytes_ok a' = true -> length a = 38%nat -> length a' = 38%nat ->
    da_screens send token p a = da_screens send token p a' \/
    exists t t' f1 f2, is_base58 a t /\ is_base58 a' t' /\ da_screens send token p a = Ok (f1 ++ SC_TEXT (str "Address") t :: f2) /\
      da_screens send token p a' = Ok (f1 ++ SC_TEXT (str "Address") t' :: f2) /\ (length f1 + length f2 <= 5)%nat.
  Proof.
    intros send token p a a' O O' L L'. unfold da_screens. destruct (ui_bip32_path_screen p (str "Path") 60 false) as [s|]; [|left; reflexivity].
    destruct send; [left; reflexivity|]. right.
    destruct (base58_exact a P2PK_ADDRESS_STRING_MAX_LEN O) as (t & B & Et); [unfold blen; lia|].
    destruct (base58_exact a' P2PK_ADDRESS_STRING_MAX_LEN O') as (t' & B' & Et'); [unfold blen; lia|].
    destruct (base58_fits a P2PK_ADDRESS_STRING_MAX_LEN O) as (x & X1 & X2); [lia|unfold P2PK_ADDRESS_STRING_MAX_LEN; lia|].
    destruct (base58_fits a' P2PK_ADDRESS_STRING_MAX_LEN O') as (x' & X1' & X2'); [lia|unfold P2PK_ADDRESS_STRING_MAX_LEN; lia|].
    assert (x = t). { rewrite X1 in Et. destruct (Nat.ltb P2PK_ADDRESS_STRING_MAX_LEN (length t)); congruence. }
    assert (x' = t'). { rewrite X1' in Et'. destruct (Nat.ltb P2PK_ADDRESS_STRING_MAX_LEN (length t')); congruence. } subst x x'. clear Et Et'. rewrite X1, X1'. unfold P2PK_ADDRESS_STRING_MAX_LEN.
    replace (Nat.leb 55 (length t)) with false by (symmetry; apply Nat.leb_gt; exact X2). replace (Nat.leb 55 (length t')) with false by (symmetry; apply Nat.leb_gt; exact X2').
    cbv zeta. rewrite (add_short (SC_INFO _) []) by reflexivity. rewrite (add_short s) by reflexivity. rewrite !(add_short (SC_TEXT _ _)) by reflexivity. cbn [bind List.app].
    set (i := SC_INFO _). destruct (token =? 0).
    - destruct (fits [i; s; SC_TEXT (str "Address") t]) as (g & -> & -> & _); [cbn; lia|]. destruct (fits [i; s; SC_TEXT (str "Address") t']) as (g & -> & -> & _); [cbn; lia|].
      exists t, t', [i; s], [SC_APPROVE; SC_REJECT]. do 2 (split; [assumption|]). do 2 (split; [reflexivity|]). cbn. lia.
    - rewrite !(add_short (ui_application_id_screen _)) by reflexivity. cbn [List.app].
      destruct (fits [i; s; SC_TEXT (str "Address") t; ui_application_id_screen token]) as (g & -> & -> & _); [cbn; lia|].
      destruct (fits [i; s; SC_TEXT (str "Address") t'; ui_application_id_screen token]) as (g & -> & -> & _); [cbn; lia|].
      exists t, t', [i; s], [ui_application_id_screen token; SC_APPROVE; SC_REJECT]. do 2 (split; [assumption|]). do 2 (split; [reflexivity|]). cbn. lia.
  Qed.
  Lemma da_sim : forall e st st' data dp h, ssim st st' -> rsim e (handler_da E st data dp h) (handler_da E' st' data dp h).
  Proof.
    intros e st st' data dp h S. pose proof S as (x & f & Est & C). unfold handler_da.
    replace (st_busy st') with (st_busy st) by (rewrite Est; reflexivity). destruct (st_busy st); [apply rsim_same, S|].
    pose proof (ssim_command _ _ CMD_DA S) as S1. cbv zeta.
    replace (st_connected (set_command st' CMD_DA)) with (st_connected (set_command st CMD_DA)) by (rewrite Est; reflexivity).
    set (s1 := set_command st CMD_DA) in *. set (s2 := set_command st' CMD_DA) in *.
    destruct (parse_da h data) as [[[net p] token]|s]; [|apply rsim_err, S1].
    destruct (ergo_path_validate p V_ADDRESS_GE5); cbn [negb]; [|apply rsim_err, S1].
    destruct (keys_sim p) as [[-> ->]|(pk & ch & pk' & ch' & G1 & G2)]; [apply rsim_err, S1|]. rewrite G1, G2.
    pose proof (address_from E net pk) as A1. pose proof (address_from E' net pk') as A2.
    destruct (ergo_address_from_pubkey (e_blake E) net pk) as [a|] eqn:Ea.
    2: { assert (ergo_address_from_pubkey (e_blake E') net pk' = None) as -> by (apply A2, A1; reflexivity). apply rsim_same, S1. }
    destruct (ergo_address_from_pubkey (e_blake E') net pk') as [a'|] eqn:Ea'.
    2: { exfalso. assert (252 < net) by (apply A2; reflexivity). assert (Some a = None) by (apply A1; assumption). discriminate. }
    clear A1 A2. destruct (address_sim _ _ _ _ _ _ Ok1 G1 Ea) as (A1 & B1 & L1). destruct (address_sim _ _ _ _ _ _ Ok2 G2 Ea') as (A2 & B2 & L2).
    destruct (negb dp && is_known_application token (st_connected s1)).
    { split; [apply ssim_command, S1|]. constructor; [|constructor]. apply differ_address with net p; assumption. }
    assert (S2 : ssim (set_ctx s1 (X_DA (mk_da token a (negb dp)))) (set_ctx s2 (X_DA (mk_da token a' (negb dp))))) by (apply ssim_ctx; [exact S1|apply cs_da with net p; assumption]).
    destruct (da_pair (negb dp) token p a a' B1 B2 L1 L2) as [->|(t & t' & f1 & f2 & T & T' & -> & -> & Len)].
    - destruct (da_screens (negb dp) token p a') as [g|s]; [|apply rsim_err, ssim_over, S1].
      destruct (ui_display_screens g) as [g'|]; [|apply rsim_same, S2]. apply rsim_same, ssim_show, S2.
    - assert (Sh : forall u, ui_display_screens (f1 ++ SC_TEXT (str "Address") u :: f2) = Some (f1 ++ SC_TEXT (str "Address") u :: (f2 ++ [SC_LOOP; SC_END]))).
      { intro u. unfold ui_display_screens, MAX_NUMBER_OF_SCREENS, blen. rewrite app_length. cbn [length].
        repeat case_if; try lia; rewrite <- app_assoc; reflexivity. }
      rewrite !Sh. split; [apply ssim_show, S2|]. constructor; [|constructor]. eapply differ_shown; eassumption.
  Qed.

  (** Session ids. *)
  Lemma drawn_is : forall r, session_id_new_random 0 (r_ids r) = drawn_id r.
  Proof.
    intro r. unfold drawn_id. induction (r_ids r) as [|i l IH]; [reflexivity|]. cbn [session_id_new_random find].
    destruct (i =? 0); cbn [orb negb]; [exact IH|reflexivity].
  Qed.
  (** Attestation does not use the seed. *)
  Lemma attest_sim : forall e st st' data p1 p2 r r', (p1 = 1 -> drawn_id r' = drawn_id r) -> ssim st st' ->
    rsim e (handler_attest E st data p1 p2 r) (handler_attest E' st' data p1 p2 r').
  Proof.
    intros e st st' data p1 p2 r r' Dr S. pose proof S as (x & f & Est & C). unfold handler_attest.
    replace (st_busy st') with (st_busy st) by (rewrite Est; reflexivity). destruct (st_busy st); [apply rsim_same, S|].
    replace (st_cmd st') with (st_cmd st) by (rewrite Est; reflexivity).
    assert (Init : p1 = 1 -> rsim e (attest_init (set_command st CMD_ATTEST) data (p2 =? 2) r) (attest_init (set_command st' CMD_ATTEST) data (p2 =? 2) r')).
    { intro P1. unfold attest_init. rewrite !drawn_is, (Dr P1), <- drawn_is. clear Dr. pose proof (ssim_command _ _ CMD_ATTEST S) as S1.
      replace (st_connected (set_command st' CMD_ATTEST)) with (st_connected (set_command st CMD_ATTEST)) by (rewrite Est; reflexivity).
      set (s1 := set_command st CMD_ATTEST) in *. set (s2 := set_command st' CMD_ATTEST) in *.
      destruct (parse_attest_init (p2 =? 2) data) as [a|s]; [|apply rsim_err, S1].
      destruct (box_init _ _ _ _ _ _ _) as [rs b]. destruct (res_pass rs); cbn [negb]; [|apply rsim_err, S1].
      destruct (session_id_new_random 0 (r_ids r)) as [sid|]; [|apply rsim_same, S1]. cbv zeta.
      destruct (is_known_application _ _); [apply rsim_same, ssim_ctx; [exact S1|constructor]|].
      destruct (attest_screens (ap_token a)) as [g|]; [|apply rsim_err, S1].
      destruct (ui_display_screens g); [|apply rsim_same, ssim_ctx; [exact S1|constructor]]. apply rsim_same, ssim_show, ssim_ctx; [exact S1|constructor]. }
    assert (In : forall k1 k2, (forall c, rsim e (k1 c) (k2 c)) ->
      rsim e (match st_cmd st with CMD_ATTEST => match st_ctx st with X_ATTEST c => if p2 =? at_session c then k1 c else handler_err st SW_BAD_SESSION_ID | _ => handler_err st SW_UB end
                              | _ => handler_err st SW_BAD_STATE end)
             (match st_cmd st with CMD_ATTEST => match st_ctx st' with X_ATTEST c => if p2 =? at_session c then k2 c else handler_err st' SW_BAD_SESSION_ID | _ => handler_err st' SW_UB end
                              | _ => handler_err st' SW_BAD_STATE end)).
    { intros k1 k2 K. destruct (st_cmd st); try (apply rsim_err, S). replace (st_ctx st') with x by (rewrite Est; reflexivity).
      destruct C; try (apply rsim_err, S). destruct (p2 =? at_session c); [apply K|apply rsim_err, S]. }
    assert (Call : forall c call, rsim e (attest_box_call E st c call) (attest_box_call E' st' c call)).
    { intros c call. unfold attest_box_call. destruct (at_state c); try (apply rsim_err, S). destruct (call (attest_bs c)) as [rs b].
      assert (OkS : ssim (set_ctx st (X_ATTEST (attest_put c b))) (set_ctx st' (X_ATTEST (attest_put c b)))) by (apply ssim_ctx; [exact S|constructor]).
      destruct rs; try (apply rsim_err, S); [|apply rsim_same, OkS]. unfold check_box_finished.
      destruct (bx_state (at_box (attest_put c b))); try (apply rsim_same, OkS). change (e_blake E') with (e_blake E).
      destruct (box_id_hash (e_blake E) (attest_bs (attest_put c b)) (at_id (attest_put c b)) (at_index (attest_put c b))) as [[rs b'] id].
      destruct rs; try (apply rsim_err, S). apply rsim_same, ssim_ctx; [exact S|constructor]. }
    assert (Frame : forall c, rsim e (attest_get_frame E st c data) (attest_get_frame E' st' c data)).
    { intro c. unfold attest_get_frame. destruct (at_state c); try (apply rsim_err, S). destruct (bind _ _) as [i|s]; [|apply rsim_err, S].
      destruct (_ <=? i); [apply rsim_err, S|]. replace (st_key st') with (st_key st) by (rewrite Est; reflexivity). apply rsim_same, S. }
    destruct p1 as [|p]; [apply rsim_err, S|].
    repeat match goal with |- context [match ?n with _ => _ end] => lazymatch n with p => destruct n | _ => match type of n with positive => destruct n end end end;
      first [apply rsim_err, S | apply In; intro c; first [apply Call|apply Frame] | idtac].
    destruct (negb (p2 =? 1) && negb (p2 =? 2)); [apply rsim_err, S|exact (Init eq_refl)].
  Qed.

  (** Signing. *)
  Lemma sign_init_sim : forall p n r r', (nonce_drawn E r' <-> nonce_drawn E r) -> match p2pk_init E (r_nonces r) p n, p2pk_init E' (r_nonces r') p n with
     | Ok c, Ok c' => op_sim c c' /\ op_path c = p /\ signable E p /\ signable E' p | Fail s, Fail s' => s = s' | _, _ => False end.
  Proof.
    intros p n r r' Nd. unfold p2pk_init. destruct (ergo_path_validate p V_ADDRESS_GE5); cbn [negb]; [|reflexivity].
    destruct (network_id_is_supported n); cbn [negb]; [|reflexivity]. destruct (Same p) as [_ Sg].
    assert (No : forall F l, ~ signable F p -> match e_derive F p with None => Fail SW_INTERNAL_CRYPTO_ERROR | Some (secret, _) =>
        match schnorr_sign_init F secret l with None => Fail SW_INTERNAL_CRYPTO_ERROR | Some (hash, key) =>
            Ok (mk_p2pk OP_INITIALIZED key p hash n (mk_amounts 0 0 (repeat 0%Z 20) []) (OU_APPROVE 0)) end end = Fail SW_INTERNAL_CRYPTO_ERROR).
    { intros F l K. destruct (e_derive F p) as [[s c]|] eqn:De; [|reflexivity]. destruct (schnorr_sign_init F s l) as [[h k]|] eqn:Si; [|reflexivity].
      exfalso. apply K. exists s, c. split; [exact De|]. unfold schnorr_sign_init in Si. apply (loop_iff F s MAX_ITERATIONS l). eauto. }
    assert (Yes : signable E p \/ ~ signable E p).
    { destruct (e_derive E p) as [[s c]|] eqn:De.
      - destruct (scalar_rejected s) eqn:Sr.
        + right. intros (s1 & c1 & K & U & _). assert (s1 = s) by congruence. subst s1. apply scalar_range in U. congruence.
        + destruct (e_mulG E s) as [w|] eqn:M.
          * left. exists s, c. split; [exact De|]. split; [apply scalar_range; exact Sr|eauto].
          * right. intros (s1 & c1 & K & _ & w & U). assert (s1 = s) by congruence. subst s1. congruence.
      - right. intros (s1 & c1 & K & _). congruence. }
    destruct Yes as [Y|Y].
    - pose proof (proj1 Sg Y) as Y'. pose proof Y as (s & c & De & U). pose proof Y' as (s' & c' & De' & U'). rewrite De, De'.
      assert (K1 : (exists x, schnorr_sign_init E s (r_nonces r) = Some x) <-> nonce_drawn E r).
      { unfold schnorr_sign_init. rewrite loop_iff. unfold nonce_drawn. split; [intros [_ Z]; exact Z|intro Z; split; [exact U|exact Z]]. }
      assert (K2 : (exists x, schnorr_sign_init E' s' (r_nonces r') = Some x) <-> nonce_drawn E r').
      { unfold schnorr_sign_init. rewrite loop_iff. unfold nonce_drawn. split; [intros [_ Z]; exact Z|intro Z; split; [exact U'|exact Z]]. }
      destruct (schnorr_sign_init E s (r_nonces r)) as [[h k]|], (schnorr_sign_init E' s' (r_nonces r')) as [[h' k']|].
      + split; [exists k', h'; reflexivity|]. split; [reflexivity|]. split; assumption.
      + exfalso. assert (Z : exists x : bytes * bytes, None = Some x) by (apply K2, Nd, K1; eauto). destruct Z; discriminate.
      + exfalso. assert (Z : exists x : bytes * bytes, None = Some x) by (apply K1, Nd, K2; eauto). destruct Z; discriminate.
      + reflexivity.
    - rewrite (No E _ Y). rewrite (No E'); [reflexivity|]. intro K. apply Y, Sg, K.
  Qed.
  Lemma exec_sim : forall key op op' sub data, op_sim op op' ->
    match sign_exec E key op sub data, sign_exec E' key op' sub data with
    | None, None => True | Some (x, a), Some (y, b) => out_sim x y /\ a = b | _, _ => False end.
  Proof.
    intros key op op' sub data S. unfold sign_exec. destruct sub as [|p]; [exact I|].
    repeat match goal with |- context [match ?n with _ => _ end] => lazymatch n with p => destruct n | _ => match type of n with positive => destruct n end end end;
      try exact I; (split; [|reflexivity]).
    all: try (apply p_add_tokens_sim, S). all: try (apply p_ext_sim, S). all: try (apply p_data_sim, S).
    all: try (apply p_tree_sim; [reflexivity|exact S]). all: try (apply p_tokens_sim; [reflexivity|exact S]). all: try (apply p_registers_sim; [reflexivity|exact S]).
    all: try exact S.
    - destruct (finished data tt); [apply p_fee_sim; [reflexivity|exact S]|reflexivity].
    - destruct (parse_output_init data) as [[[[[v t] h] n] r]|x]; [apply p_add_output_sim, S|reflexivity].
    - change (parse_input_frame E' key data) with (parse_input_frame E key data). destruct (parse_input_frame E key data) as [f|x]; [|reflexivity]. cbn [bind].
      apply bind_sim; [destruct (if_index f =? 0); [apply p_add_input_sim, S|exact S]|]. intros; apply p_input_tokens_sim; assumption.
    - destruct (stx_read_bip32_path data) as [[q l]|x]; [|reflexivity]. cbn [bind]. destruct (ergo_path_validate q V_ADDRESS_GE5); cbn [negb]; [|reflexivity].
      destruct (keys_sim q) as [[-> ->]|(pk & ch & pk' & ch' & -> & ->)]; [reflexivity|]. apply p_change_sim; [reflexivity|exact S].
    - destruct (parse_tx_start data) as [[[[i d] t] o]|x]; [|reflexivity]. apply start_tx_sim, S.
  Qed.

  (** The signing path stays. *)
  Definition on_path (p : list N) (x : out p2pk) : Prop := match x with Ok c => op_path c = p | Fail _ => True end.
  Lemma path_bind : forall p x k, on_path p x -> (forall c, op_path c = p -> on_path p (k c)) -> on_path p (bind x k).
  Proof. intros p [c|s] k H K; [apply K, H|exact I]. Qed.
  Lemma path_tx : forall p c call, op_path c = p -> on_path p (tx_call c call).
  Proof.
    intros p c call H. unfold tx_call. destruct (op_union_of c); try exact I. destruct (call (op_fs c t)) as [r s]. destruct (tx_result r); [exact I|exact H].
  Qed.
  Lemma path_output : forall p c call, op_path c = p -> on_path p (output_call c call).
  Proof.
    intros p c call H. unfold output_call. destruct (op_union_of c); try exact I. destruct (tx_output t); [|exact I]. destruct (call o) as [s o']. destruct s; try exact I. exact H.
  Qed.
  Lemma path_finished : forall p c, op_path c = p -> on_path p (check_tx_finished c).
  Proof. intros p c H. unfold check_tx_finished. destruct (op_union_of c); try exact I. destruct (fl_state (tx_full t)); exact H. Qed.
  Lemma path_chunk : forall F op data, on_path (op_path op) (p2pk_add_output_tree_chunk F op data).
  Proof.
    intros. unfold p2pk_add_output_tree_chunk. destruct (op_state_of op); try exact I. destruct (op_union_of op) as [|t|]; try exact I.
    destruct (full_add_box_ergo_tree (op_box_cb F) (op_fs op t) data) as [r s]. destruct r; try exact I;
      (apply path_bind; [apply path_output; reflexivity|apply path_finished]).
  Qed.
  Lemma exec_path : forall F key op sub data x a, sign_exec F key op sub data = Some (x, a) -> on_path (op_path op) x.
  Proof.
    intros F key op sub data x a H. unfold sign_exec in H. destruct sub as [|p]; [discriminate|].
    repeat match type of H with context [match ?n with _ => _ end] => lazymatch n with p => destruct n | _ => match type of n with positive => destruct n end end end;
      try discriminate H; apply (f_equal (fun y => match y with Some (z, _) => z | None => x end)) in H; rewrite <- H; clear H x.
    all: try reflexivity. all: try apply path_chunk.
    all: try (unfold p2pk_add_tokens, p2pk_add_input_context_extension, p2pk_add_data_inputs, p2pk_add_output_tokens, p2pk_add_output_registers;
              destruct (op_state_of op); try exact I; first [apply path_tx; reflexivity | apply path_bind; [apply path_tx; reflexivity|apply path_finished]]).
    - destruct (finished data tt); [|exact I]. cbn [bind]. unfold p2pk_add_output_tree_fee. destruct (op_state_of op); try exact I.
      apply path_bind; [apply path_tx; reflexivity|]. intros c Hc. apply path_bind; [apply path_output, Hc|apply path_finished].
    - destruct (parse_output_init data) as [[[[[v t] h] n] r]|x]; [|exact I]. cbn [bind]. unfold p2pk_add_output. destruct (op_state_of op); try exact I;
        (apply path_bind; [apply path_tx; reflexivity|]; intros c Hc; apply path_bind; [apply path_tx, Hc|]; intros c' Hc'; destruct (op_union_of c'); try exact I; exact Hc').
    - destruct (parse_input_frame F key data) as [f|x]; [|exact I]. cbn [bind]. apply path_bind.
      + destruct (if_index f =? 0); [|reflexivity]. unfold p2pk_add_input. destruct (op_state_of op); try exact I;
        (apply path_bind; [apply path_tx; reflexivity|]; intros c Hc; apply path_bind; [apply path_tx, Hc|]; intros c' Hc'; destruct (amounts_add_input (op_amounts c') (if_value f)) as [y b];
         destruct y; try exact I; exact Hc').
      + intros c Hc. unfold p2pk_add_input_tokens. destruct (op_state_of c); try exact I. apply path_tx, Hc.
    - destruct (stx_read_bip32_path data) as [[q l]|x]; [|exact I]. cbn [bind]. destruct (negb _); [exact I|]. destruct (generate_public_key F q) as [[pk ch]|]; [|exact I].
      unfold p2pk_add_output_tree_change. destruct (op_state_of op); try exact I.
      apply path_bind; [apply path_tx; reflexivity|]. intros c Hc. apply path_bind; [apply path_output, Hc|apply path_finished].
    - destruct (parse_tx_start data) as [[[[i d] t] o]|x]; [|exact I]. cbn [bind]. unfold p2pk_start_tx. destruct (op_state_of op); try exact I.
      destruct (full_init _ _ _ _ _ _ _ _) as [r s]. destruct (tx_result r); [exact I|reflexivity].
  Qed.
  Lemma page_sim : forall k c c' i, csim c c' -> page_of E k c i = page_of E' k c' i.
  Proof.
    intros k c c' i H. destruct H; try (destruct k; reflexivity). destruct H as (ky & h & ->). destruct k; reflexivity.
  Qed.
  Lemma pages_sim : forall k c c' n, csim c c' -> pages_of E k c n = pages_of E' k c' n.
  Proof. intros k c c' n H. unfold pages_of. apply map_ext. intro i. apply page_sim, H. Qed.
  Lemma dynamic_sim : forall e st st' k f d c c', ssim st st' -> csim c c' -> rsim e (show_dynamic E st k f d c) (show_dynamic E' st' k f d c').
  Proof.
    intros e st st' k f d c c' S C. unfold show_dynamic. rewrite (pages_sim k c c' _ C). apply rsim_same, ssim_show, ssim_ctx; assumption.
  Qed.
  Lemma sign_command_sim : forall e st st' s i op op' sub data, ssim st st' -> op_sim op op' -> signable E (op_path op) -> signable E' (op_path op) ->
    rsim e (sign_command E st (mk_sign s i op) sub data) (sign_command E' st' (mk_sign s i op') sub data).
  Proof.
    intros e st st' s i op op' sub data S O G G'. unfold sign_command. cbn [sg_state sg_op sg_session]. destruct s; [apply rsim_err, S|].
    replace (st_key st') with (st_key st) by (destruct S as (x & f & -> & _); reflexivity).
    pose proof (exec_sim (st_key st) op op' sub data O) as X. pose proof (exec_path E (st_key st) op sub data) as P.
    destruct (sign_exec E (st_key st) op sub data) as [[x a]|], (sign_exec E' (st_key st) op' sub data) as [[y b]|]; try (destruct X; fail); [|apply rsim_err, S].
    destruct X as [X <-]. specialize (P x a eq_refl). destruct x as [c|w], y as [c'|w']; cbn [out_sim on_path] in X, P; try (destruct X; fail).
    2: { subst w'. destruct a; apply rsim_err, S. }
    assert (C : forall d d', op_path d = op_path op -> op_sim d d' -> csim (X_SIGN (mk_sign SG_APPROVED i d)) (X_SIGN (mk_sign SG_APPROVED i d'))).
    { intros d d' Hd K. constructor; [exact K| |]; rewrite Hd; assumption. }
    destruct a.
    - apply rsim_same, ssim_ctx; [exact S|apply C; assumption].
    - unfold show_output_screen_if_needed. rewrite <- (should_show_sim c c' X). destruct (p2pk_should_show_output c) as [[|]|]; [| |apply rsim_err, S].
      + pose proof (output_confirm_sim c c' X) as Sh. assert (Pc : forall f d q, p2pk_show_output_confirm_screen c = Ok (f, d, q) -> op_path q = op_path c).
        { intros f d q. unfold p2pk_show_output_confirm_screen. destruct (op_state_of c); try discriminate; (destruct (op_union_of c); try discriminate; destruct (tx_output t); [|discriminate];
          destruct (add_output_screens [] o); [|discriminate]; cbn [bind]; destruct (display (fst a)); [|discriminate]; cbn [bind]; intro K; injection K as <- <- <-; reflexivity). }
        destruct (p2pk_show_output_confirm_screen c) as [[[f d] q]|w], (p2pk_show_output_confirm_screen c') as [[[f' d'] q']|w']; cbn [shown_sim] in Sh; try (destruct Sh; fail).
        * destruct Sh as [Sh1 Sh2]. injection Sh1 as -> ->. apply dynamic_sim; [exact S|]. apply C; [|exact Sh2]. rewrite (Pc _ _ _ eq_refl). exact P.
        * subst w'. apply rsim_err, S.
      + apply rsim_same, ssim_ctx; [exact S|apply C; assumption].
    - pose proof (confirm_sim c c' X) as Sh. assert (Pc : forall f d q, p2pk_show_confirm_screen c = Ok (f, d, q) -> op_path q = op_path c).
      { intros f d q. unfold p2pk_show_confirm_screen. destruct (op_state_of c); try discriminate. destruct (add_transaction_screens [] (op_amounts c) 1) as [u|]; [|discriminate].
        cbn [bind]; destruct (display (fst u)); [|discriminate]; cbn [bind]; intro K; injection K as <- <- <-; reflexivity. }
      destruct (p2pk_show_confirm_screen c) as [[[f d] q]|w], (p2pk_show_confirm_screen c') as [[[f' d'] q']|w']; cbn [shown_sim] in Sh; try (destruct Sh; fail).
      * destruct Sh as [Sh1 Sh2]. injection Sh1 as -> ->. apply dynamic_sim; [exact S|]. apply C; [|exact Sh2]. rewrite (Pc _ _ _ eq_refl). exact P.
      * subst w'. apply rsim_err, S.
  Qed.
  Lemma sign_sim : forall e st st' data p1 p2 r r', (p1 = 1 -> drawn_id r' = drawn_id r) -> (p1 = 1 -> (nonce_drawn E r' <-> nonce_drawn E r)) -> ssim st st' ->
    rsim e (handler_sign E st data p1 p2 r) (handler_sign E' st' data p1 p2 r').
  Proof.
    intros e st st' data p1 p2 r r' Dr Nd S. pose proof S as (x & f & Est & C). unfold handler_sign.
    replace (st_busy st') with (st_busy st) by (rewrite Est; reflexivity). destruct (st_busy st); [apply rsim_same, S|].
    replace (st_cmd st') with (st_cmd st) by (rewrite Est; reflexivity). destruct (N.eqb_spec p1 1) as [P1|P1].
    - specialize (Dr P1). specialize (Nd P1). clear P1. destruct (negb (p2 =? 1) && negb (p2 =? 2)); [apply rsim_same, S|]. unfold sign_init. pose proof (ssim_command _ _ CMD_SIGN S) as S1.
      replace (st_connected (set_command st' CMD_SIGN)) with (st_connected (set_command st CMD_SIGN)) by (rewrite Est; reflexivity).
      set (s1 := set_command st CMD_SIGN) in *. set (s2 := set_command st' CMD_SIGN) in *.
      destruct (parse_sign_init (p2 =? 2) data) as [[[net p] token]|s]; [|apply rsim_err, S1].
      pose proof (sign_init_sim p net r r' Nd) as I1. destruct (p2pk_init E (r_nonces r) p net) as [op|w], (p2pk_init E' (r_nonces r') p net) as [op'|w']; try (destruct I1; fail).
      2: { subst w'. apply rsim_err, S1. }
      destruct I1 as (O & Hp & G & G'). rewrite !drawn_is, Dr, <- drawn_is. destruct (session_id_new_random 0 (r_ids r)) as [sid|]; [|apply rsim_same, S1].
      pose proof (token_and_path_sim op op' token (is_known_application (st_connected s1) token) O) as Sh.
      assert (Pc : forall k g q, p2pk_show_token_and_path op token k = Ok (g, q) -> op_path q = op_path op).
      { intros k g q. unfold p2pk_show_token_and_path. destruct (ui_bip32_path_screen _ _ _ _); [|discriminate]. destruct (add_operation_approve_screens _ _ _) as [u|]; [|discriminate].
        cbn [bind]. destruct (display u); [|discriminate]. cbn [bind]. intro K. injection K as <- <-. reflexivity. }
      specialize (Pc (is_known_application (st_connected s1) token)).
      destruct (p2pk_show_token_and_path op token (is_known_application (st_connected s1) token)) as [[g q]|w],
               (p2pk_show_token_and_path op' token (is_known_application (st_connected s1) token)) as [[g' q']|w']; cbn [shown_sim] in Sh; try (destruct Sh; fail).
      + destruct Sh as [-> Sh]. apply rsim_same, ssim_show, ssim_ctx; [exact S1|]. constructor; [exact Sh| |]; rewrite (Pc _ _ eq_refl), Hp; assumption.
      + subst w'. apply rsim_err, S1.
    - destruct (is_sign_subcommand p1); [|apply rsim_err, S]. destruct (st_cmd st); try (apply rsim_err, S). replace (st_ctx st') with x by (rewrite Est; reflexivity).
      destruct C as [| | | |s i op op' O G G']; try (apply rsim_err, S). cbn [sg_session]. destruct (p2 =? i); [|apply rsim_err, S]. apply sign_command_sim; assumption.
  Qed.
  Lemma dispatch_sim : forall e st st' cla ins p1 p2 data r r', other_chance E (Apdu cla ins p1 p2 data r) (Apdu cla ins p1 p2 data r') -> ssim st st' ->
    rsim e (apdu_dispatcher E st cla ins p1 p2 data r) (apdu_dispatcher E' st' cla ins p1 p2 data r').
  Proof.
    intros e st st' cla ins p1 p2 data r r' (_ & _ & _ & _ & _ & Dr & Nd) S. unfold apdu_dispatcher. destruct (cla =? 0xE0); cbn [negb]; [|apply rsim_same, S].
    destruct ins as [|p]; [apply rsim_same, S|].
    repeat match goal with |- context [match ?n with _ => _ end] => lazymatch n with p => destruct n | _ => match type of n with positive => destruct n end end end;
      try (apply rsim_same, S); match goal with |- context [if ?b then _ else _] => destruct b; [apply rsim_same, S|] end;
      first [apply rsim_same, S|apply epk_sim, S|apply da_sim, S|apply attest_sim; [apply Dr; auto|exact S]|apply sign_sim; [apply Dr; auto|apply Nd; reflexivity|exact S]].
  Qed.

  (** The user. *)
  Lemma approve_sim : forall e st st' s i op op' b, ssim st st' -> op_sim op op' -> signable E (op_path op) -> signable E' (op_path op) -> st_ctx st = X_SIGN (mk_sign s i op) ->
    rsim e (ui_action_stx_approve st (mk_sign s i op) b) (ui_action_stx_approve st' (mk_sign s i op') b).
  Proof.
    intros e st st' s i op op' b S O G G' X. unfold ui_action_stx_approve. cbn [sg_op sg_session]. destruct b.
    - replace (op_union_of op') with (op_union_of op) by (destruct O as (ky & h & ->); reflexivity). destruct (op_union_of op).
      + apply rsim_same, ssim_menu, ssim_ctx; [apply ssim_connected, ssim_busy, S|]. constructor; assumption.
      + apply rsim_same, ssim_menu, ssim_busy, S.
      + apply rsim_same, ssim_menu, ssim_busy, S.
    - apply rsim_same, ssim_menu, ssim_command, ssim_busy, S.
  Qed.
  Lemma output_sim : forall e st st' s i op op' b, ssim st st' -> op_sim op op' -> signable E (op_path op) -> signable E' (op_path op) ->
    rsim e (ui_action_stx_output st (mk_sign s i op) b) (ui_action_stx_output st' (mk_sign s i op') b).
  Proof.
    intros e st st' s i op op' b S O G G'. unfold ui_action_stx_output. cbn [sg_op sg_session sg_state].
    replace (op_union_of op') with (op_union_of op) by (destruct O as (ky & h & ->); reflexivity).
    destruct (op_union_of op) as [|t|]; try (apply rsim_same, ssim_menu, ssim_busy, S). destruct (tx_output t) as [o|]; [|apply rsim_same, ssim_menu, ssim_busy, S].
    destruct b; [|apply rsim_same, ssim_menu, ssim_command, ssim_busy, S]. cbv zeta.
    apply rsim_same, ssim_menu, ssim_ctx; [apply ssim_busy, S|]. constructor; [|exact G|exact G']. destruct O as (ky & h & ->). exists ky, h. reflexivity.
  Qed.
  Lemma send_sim : forall F c, env_ok F -> signable F (op_path c) -> op_state_of c = OP_FINALIZED ->
    signing_answer (match p2pk_send_response F c with Ok s => OResp s SW_OK | Fail s => resp s end).
  Proof.
    intros F c Ok (s & ch & De & _) St. pose proof (sig_size F c) as Sz. unfold p2pk_send_response in *. rewrite St, De in *.
    destruct (schnorr_sign_finish F (op_hash c) s (op_key c)) as [b|]; [|right; reflexivity]. left. exists b. split; [|reflexivity].
    specialize (Sz b Ok eq_refl). unfold blen in Sz. lia.
  Qed.
  Lemma tx_sim : forall st st' s i op op' (b : bool), ssim st st' -> op_sim op op' -> signable E (op_path op) -> signable E' (op_path op) ->
    rsim (if b then UiApprove else UiReject) (ui_action_stx_tx E st (mk_sign s i op) b) (ui_action_stx_tx E' st' (mk_sign s i op') b).
  Proof.
    intros st st' s i op op' b S O G G'. unfold ui_action_stx_tx. cbn [sg_op]. cbv zeta. split; [apply ssim_menu, ssim_command, ssim_busy, S|]. cbn [snd].
    destruct b; [|apply one_same]. destruct O as (ky & h & ->). destruct (op_state_of op) eqn:St; try (unfold p2pk_send_response; cbn [op_state_of]; rewrite St; apply one_same).
    constructor; [|constructor]. apply differ_signature; apply send_sim; try assumption; reflexivity.
  Qed.
  Lemma epk_action_sim : forall e st st' c c' b, ssim st st' -> csim (X_EPK c) (X_EPK c') -> rsim e (ui_action_epk st c b) (ui_action_epk st' c' b).
  Proof.
    intros e st st' c c' b S C. inversion C as [|t p ch pk ch' pk' G1 G2| | |]; subst. unfold ui_action_epk. cbn [ep_token ep_key ep_chain]. destruct b.
    - split; [apply ssim_menu, ssim_command, ssim_connected, ssim_busy, S|]. constructor; [|constructor]. apply differ_key with p; apply exported_sim; assumption.
    - apply rsim_same, ssim_menu, ssim_command, ssim_busy, S.
  Qed.
  Lemma da_action_sim : forall e st st' c c' b, ssim st st' -> csim (X_DA c) (X_DA c') -> rsim e (ui_action_da st c b) (ui_action_da st' c' b).
  Proof.
    intros e st st' c c' b S C. inversion C as [| |t n p a a' sd A1 A2| |]; subst. unfold ui_action_da. cbn [da_token da_send da_address]. destruct b; [destruct sd|].
    - split; [apply ssim_menu, ssim_command, ssim_connected, ssim_busy, S|]. constructor; [|constructor]. apply differ_address with n p; assumption.
    - apply rsim_same, ssim_menu, ssim_command, ssim_connected, ssim_busy, S.
    - apply rsim_same, ssim_menu, ssim_command, ssim_busy, S.
  Qed.
  Lemma attest_action_sim : forall e st st' c b, ssim st st' -> rsim e (ui_action_attest st c b) (ui_action_attest st' c b).
  Proof.
    intros e st st' c b S. unfold ui_action_attest. destruct b.
    - apply rsim_same, ssim_menu, ssim_ctx; [apply ssim_connected, ssim_busy, S|constructor].
    - apply rsim_same, ssim_menu, ssim_command, ssim_busy, S.
  Qed.
  Lemma action_sim : forall st st' (b : bool), ssim st st' -> rsim (if b then UiApprove else UiReject) (ui_action E st b) (ui_action E' st' b).
  Proof.
    intros st st' b S. pose proof S as (x & f & Est & C). unfold ui_action. replace (st_ui st') with (st_ui st) by (rewrite Est; reflexivity).
    replace (st_ctx st') with x by (rewrite Est; reflexivity). clear Est f. remember (st_ctx st) as y eqn:X. destruct C as [|t p ch pk ch' pk' G1 G2|t n p a a' sd A1 A2|c|s i op op' O G G'];
      destruct (st_ui st); try (apply rsim_same, S).
    - apply epk_action_sim; [exact S|]. econstructor; eassumption.
    - apply da_action_sim; [exact S|]. econstructor; eassumption.
    - apply attest_action_sim, S.
    - apply approve_sim; try assumption. symmetry. exact X.
    - apply output_sim; assumption.
    - apply tx_sim; assumption.
  Qed.
  Lemma path_both_sim : forall e st st', ssim st st' -> rsim e (ui_path_both st) (ui_path_both st').
  Proof.
    intros e st st' S. pose proof S as (x & f & Est & C). unfold ui_path_both. replace (st_ui st') with (st_ui st) by (rewrite Est; reflexivity).
    replace (st_ctx st') with x by (rewrite Est; reflexivity). clear Est f. remember (st_ctx st) as y eqn:X. destruct C as [|t p ch pk ch' pk' G1 G2|t n p a a' sd A1 A2|c|s i op op' O G G'];
      destruct (st_ui st); try (apply rsim_same, S). apply approve_sim; try assumption. symmetry. exact X.
  Qed.
  Lemma navigate_sim : forall e st st' d, ssim st st' -> rsim e (display_dynamic E st d) (display_dynamic E' st' d).
  Proof.
    intros e st st' [d [i|]] S; unfold display_dynamic; cbn [fst snd]; [|apply rsim_same, ssim_dyn, S].
    replace (page_of E' (st_ui (set_dyn st' d)) (st_ctx (set_dyn st' d)) i) with (page_of E (st_ui (set_dyn st d)) (st_ctx (set_dyn st d)) i).
    - destruct (page_of E (st_ui (set_dyn st d)) (st_ctx (set_dyn st d)) i) as [[t b]|w]; [apply rsim_same, ssim_dyn, S|].
      destruct w; first [apply rsim_same, ssim_dyn, S|apply rsim_same, ssim_menu, ssim_command, ssim_dyn, S].
    - destruct S as (x & f & -> & C). apply page_sim, C.
  Qed.
  Lemma step_sim : forall e e' st st', other_chance E e e' -> ssim st st' -> rsim e (step E st e) (step E' st' e').
  Proof.
    intros e e' st st' Oc S. assert (U : st_ui st' = st_ui st /\ st_dyn st' = st_dyn st) by (destruct S as (x & f & -> & _); split; reflexivity). destruct U as [U1 U2].
    destruct e; [|cbn [other_chance] in Oc; subst e'; cbn [step]..].
    - destruct e'; try (cbn [other_chance] in Oc; discriminate). pose proof Oc as (-> & -> & -> & -> & -> & _). cbn [step]. apply dispatch_sim; [exact Oc|exact S].
    - apply rsim_same, S.
    - exact (action_sim _ _ true S).
    - exact (action_sim _ _ false S).
    - apply path_both_sim, S.
    - rewrite U1, U2. destruct (has_pages (st_ui st)); [apply navigate_sim, S|apply rsim_same, S].
    - rewrite U1, U2. destruct (has_pages (st_ui st)); [apply navigate_sim, S|apply rsim_same, S].
    - rewrite U1. destruct (st_ui st); first [apply rsim_same, S|apply rsim_same, ssim_about, S].
    - rewrite U1. destruct (st_ui st); first [apply rsim_same, S|apply rsim_same, ssim_menu, S].
  Qed.

  Lemma diverge_sim : forall e o o', Forall2 (differ_by_seed E E' e) o o' -> ~ In ODiverge o -> ~ In ODiverge o'.
  Proof.
    intros e o o' H. induction H as [|x y l l' H HH IH]; intros K I; [destruct I|]. destruct I as [->|I]; [|apply IH in I; [exact I|intro Z; apply K; right; exact Z]].
    apply K. left. inversion H; subst; try discriminate; try reflexivity. destruct H1 as [(s & _ & Z)|Z]; discriminate.
  Qed.
  Lemma history_sim : forall key tr st, history E key tr st -> forall evs, Forall event_ok evs -> Forall2 (other_chance E) (map fst tr) evs ->
    exists tr' st', history E' key tr' st' /\ map fst tr' = evs /\ ssim st st' /\
      Forall2 (fun o o' => Forall2 (differ_by_seed E E' (fst o)) (snd o) (snd o')) tr tr'.
  Proof.
    intros key tr st H. induction H as [|tr st e outs st1 H IH Hev Hs Hd]; intros evs Ev F0.
    - inversion F0; subst. exists [], (init key). split; [constructor|]. split; [reflexivity|]. split; [|constructor]. exists X_NONE, menu_cells. split; [reflexivity|constructor].
    - rewrite map_app in F0. apply Forall2_app_inv_l in F0. destruct F0 as (l1 & l2 & F1 & F2 & ->). cbn [map fst] in F2. inversion F2 as [|? e' ? ? Oc F3]; subst. inversion F3; subst.
      apply Forall_app in Ev. destruct Ev as [Ev1 Ev2]. inversion Ev2; subst.
      destruct (IH l1 Ev1 F1) as (tr' & st' & H' & M & S & F). pose proof (step_sim e e' st st' Oc S) as [S1 F4]. rewrite Hs in S1, F4. cbn [fst snd] in S1, F4.
      destruct (step E' st' e') as [st2 outs'] eqn:Hs'. cbn [fst snd] in S1, F4. exists (tr' ++ [(e', outs')]), st2.
      split; [econstructor; eauto; exact (diverge_sim _ _ _ F4 Hd)|]. split; [rewrite map_app; f_equal; exact M|]. split; [exact S1|].
      apply Forall2_app; [exact F|]. constructor; [exact F4|constructor].
  Qed.
End Seed.

Lemma same_chance : forall E l, Forall2 (other_chance E) l l.
Proof. intros E l. induction l as [|e l IH]; constructor; [|exact IH]. destruct e; cbn [other_chance]; try reflexivity. repeat split; auto. Qed.
Lemma history_events : forall E key tr st, history E key tr st -> Forall event_ok (map fst tr).
Proof. intros E key tr st H. induction H as [|tr st e outs st' H IH He Hs Hd]; [constructor|]. rewrite map_app. apply Forall_app. split; [exact IH|]. constructor; [exact He|constructor]. Qed.
Theorem seed_blind : forall E derive key tr st, env_ok E -> env_ok (with_seed E derive) -> same_paths E (with_seed E derive) -> history E key tr st ->
  exists tr' st', history (with_seed E derive) key tr' st' /\ Forall2 (same_but_seed E (with_seed E derive)) tr tr'.
Proof.
  intros E D key tr st O1 O2 Sp H. destruct (history_sim E D O1 O2 Sp key tr st H (map fst tr) (history_events E key tr st H)) as (tr' & st' & H' & M & _ & F).
  { apply same_chance. }
  exists tr', st'. split; [exact H'|]. clear H H'. revert M. induction F as [|o o' l l' F FF IH]; intro M; [constructor|]. cbn [map] in M. injection M as M1 M2.
  constructor; [split; [symmetry; exact M1|exact F]|exact (IH M2)].
Qed.

(** Sizes. *)
Lemma exported_length : forall E p b, env_ok E -> exported_key E p b -> length b = 65%nat.
Proof.
  intros E p b Ok (pk & ch & (s & w & De & M & ->) & ->). destruct (ok_derive_len E Ok _ _ _ De) as (_ & L & _). destruct (ok_mulG_len E Ok _ _ M) as [Lw _].
  rewrite app_length, (compressed_length w Lw), L. reflexivity.
Qed.
Lemma address_length : forall E n p b, env_ok E -> address_at E n p b -> length b = 38%nat.
Proof.
  intros E n p b Ok (pk & ch & (s & w & De & M & ->) & ->). destruct (ok_mulG_len E Ok _ _ M) as [Lw _].
  unfold SpecPages.address. cbv zeta. rewrite app_length. cbn [length]. rewrite (compressed_length w Lw), firstn_length_le by (rewrite (ok_blake_len E Ok); lia). reflexivity.
Qed.
Lemma differ_shape : forall E E' e o o', env_ok E -> env_ok E' -> differ_by_seed E E' e o o' ->
  answer_shape o = answer_shape o' \/ e = UiApprove /\ signing_answer o /\ signing_answer o'.
Proof.
  intros E E' e o o' O O' H. destruct H as [e o|e p b b' K K'|e n p b b' K K'|e n p b b' t t' f1 f2 K K' _ _|o o' K K'].
  - left. reflexivity.
  - left. cbn [answer_shape]. rewrite (exported_length _ _ _ O K), (exported_length _ _ _ O' K'). reflexivity.
  - left. cbn [answer_shape]. rewrite (address_length _ _ _ _ O K), (address_length _ _ _ _ O' K'). reflexivity.
  - left. reflexivity.
  - right. auto.
Qed.
Lemma forall2_impl : forall A B (P Q : A -> B -> Prop) l l', (forall x y, P x y -> Q x y) -> Forall2 P l l' -> Forall2 Q l l'.
Proof. intros A B P Q l l' K F. induction F; constructor; auto. Qed.
Theorem seed_shape : forall E derive key tr st, env_ok E -> env_ok (with_seed E derive) -> same_paths E (with_seed E derive) -> history E key tr st ->
  exists tr' st', history (with_seed E derive) key tr' st' /\
    Forall2 (fun o o' => fst o = fst o' /\ Forall2 (fun x x' => answer_shape x = answer_shape x' \/ fst o = UiApprove /\ signing_answer x /\ signing_answer x') (snd o) (snd o')) tr tr'.
Proof.
  intros E D key tr st O O' Sp H. destruct (seed_blind E D key tr st O O' Sp H) as (tr' & st' & H' & F). exists tr', st'. split; [exact H'|].
  eapply forall2_impl; [|exact F]. intros o o' [K1 K2]. split; [exact K1|]. eapply forall2_impl; [|exact K2]. intros x y K. exact (differ_shape _ _ _ _ _ O O' K).
Qed.

(** Without requests for keys nothing depends on the seed. *)
Lemma attest_ui : forall E st data p1 p2 r, st_ui (fst (handler_attest E st data p1 p2 r)) = st_ui st \/ st_ui (fst (handler_attest E st data p1 p2 r)) = U_ATTEST.
Proof.
  intros E st data p1 p2 r. unfold handler_attest. destruct (st_busy st); [left; reflexivity|].
  assert (Init : forall h, st_ui (fst (attest_init (set_command st CMD_ATTEST) data h r)) = st_ui st \/ st_ui (fst (attest_init (set_command st CMD_ATTEST) data h r)) = U_ATTEST).
  { intro h. unfold attest_init. destruct (parse_attest_init h data) as [a|s]; [|left; reflexivity]. destruct (box_init _ _ _ _ _ _ _) as [rs b]. destruct (negb _); [left; reflexivity|].
    destruct (session_id_new_random 0 (r_ids r)); [|left; reflexivity]. cbv zeta. destruct (is_known_application _ _); [left; reflexivity|].
    destruct (attest_screens _) as [g|]; [|left; reflexivity]. destruct (ui_display_screens g); [right; reflexivity|left; reflexivity]. }
  assert (In : forall k, (forall c, st_ui (fst (k c)) = st_ui st) ->
      st_ui (fst (match st_cmd st with CMD_ATTEST => match st_ctx st with X_ATTEST c => if p2 =? at_session c then k c else handler_err st SW_BAD_SESSION_ID | _ => handler_err st SW_UB end
                              | _ => handler_err st SW_BAD_STATE end)) = st_ui st).
  { intros k K. destruct (st_cmd st); try reflexivity. destruct (st_ctx st); try reflexivity. destruct (p2 =? at_session c); [apply K|reflexivity]. }
  assert (Call : forall c call, st_ui (fst (attest_box_call E st c call)) = st_ui st).
  { intros c call. unfold attest_box_call. destruct (at_state c); try reflexivity. destruct (call (attest_bs c)) as [rs b]. destruct rs; try reflexivity.
    unfold check_box_finished. destruct (bx_state (at_box (attest_put c b))); try reflexivity.
    destruct (box_id_hash (e_blake E) (attest_bs (attest_put c b)) (at_id (attest_put c b)) (at_index (attest_put c b))) as [[rs b'] id]. destruct rs; reflexivity. }
  assert (Frame : forall c, st_ui (fst (attest_get_frame E st c data)) = st_ui st).
  { intro c. unfold attest_get_frame. destruct (at_state c); try reflexivity. destruct (bind _ _) as [i|s]; [|reflexivity]. destruct (_ <=? i); reflexivity. }
  destruct p1 as [|p]; [left; reflexivity|].
  repeat match goal with |- context [match ?n with _ => _ end] => lazymatch n with p => destruct n | _ => match type of n with positive => destruct n end end end;
    first [left; reflexivity | left; apply In; intro c; first [apply Call|apply Frame] | idtac].
  destruct (negb (p2 =? 1) && negb (p2 =? 2)); [left; reflexivity|apply Init].
Qed.
Lemma keyless_step : forall E D st e, no_key_used e = true -> st_ui st <> U_STX_TX -> step (with_seed E D) st e = step E st e /\ st_ui (fst (step E st e)) <> U_STX_TX.
Proof.
  intros E D st e K U.
  assert (Nav : forall d, display_dynamic (with_seed E D) st d = display_dynamic E st d /\ st_ui (fst (display_dynamic E st d)) <> U_STX_TX).
  { intros [d [i|]]; (split; [reflexivity|]); unfold display_dynamic; cbn [fst snd]; [|exact U]. destruct (page_of E _ _ i) as [[t b]|w]; [exact U|]. destruct w; try exact U; discriminate. }
  assert (Act : forall b, ui_action (with_seed E D) st b = ui_action E st b /\ st_ui (fst (ui_action E st b)) <> U_STX_TX).
  { intro b. unfold ui_action. split; [destruct (st_ui st); try reflexivity; congruence|].
    destruct (st_ui st) eqn:X; destruct (st_ctx st); cbn [fst]; try (rewrite X; discriminate); try congruence.
    - unfold ui_action_epk. destruct b; discriminate.
    - unfold ui_action_da. destruct b; [destruct (da_send c)|]; discriminate.
    - unfold ui_action_attest. destruct b; discriminate.
    - unfold ui_action_stx_approve. destruct b; [destruct (op_union_of _)|]; discriminate.
    - unfold ui_action_stx_output. destruct (op_union_of _); try discriminate. destruct (tx_output t); [|discriminate]. destruct b; discriminate. }
  destruct e as [cla ins p1 p2 data r| | | | | | | |]; cbn [step].
  - cbn [no_key_used] in K. unfold apdu_dispatcher. destruct (negb (cla =? 224)); [split; [reflexivity|exact U]|].
    destruct ins as [|p]; [split; [reflexivity|exact U]|].
    repeat match goal with |- context [match ?n with _ => _ end] => lazymatch n with p => destruct n | _ => match type of n with positive => destruct n end end end;
      try discriminate K; try (split; [reflexivity|exact U]);
      match goal with |- context [if ?b then _ else _] => destruct b; [split; [reflexivity|exact U]|] end;
      try (split; [reflexivity|exact U]). split; [reflexivity|]. destruct (attest_ui E st data p1 p2 r) as [->| ->]; [exact U|discriminate].
  - split; [reflexivity|exact U].
  - apply Act.
  - apply Act.
  - split; [reflexivity|]. unfold ui_path_both. destruct (st_ui st) eqn:X; destruct (st_ctx st); cbn [fst]; try (rewrite X; discriminate); try congruence.
    unfold ui_action_stx_approve. destruct (op_union_of _); discriminate.
  - destruct (has_pages (st_ui st)); [apply Nav|split; [reflexivity|exact U]].
  - destruct (has_pages (st_ui st)); [apply Nav|split; [reflexivity|exact U]].
  - split; [reflexivity|]. destruct (st_ui st) eqn:X; cbn [fst]; try (rewrite X; discriminate); try congruence. discriminate.
  - split; [reflexivity|]. destruct (st_ui st) eqn:X; cbn [fst]; try (rewrite X; discriminate); try congruence. discriminate.
Qed.
Theorem keyless : forall E derive key tr st, history E key tr st -> Forall (fun o => no_key_used (fst o) = true) tr -> history (with_seed E derive) key tr st.
Proof.
  intros E D key tr st H F. assert (K : history (with_seed E D) key tr st /\ st_ui st <> U_STX_TX); [|apply K].
  induction H as [|tr st e outs st1 H IH Hev Hs Hd]; [split; [constructor|discriminate]|].
  apply Forall_app in F as [F1 F2]. inversion F2 as [|? ? K _]; subst. cbn [fst] in K. destruct (IH F1) as [H' U].
  destruct (keyless_step E D st e K U) as [S1 S2]. rewrite Hs in S1, S2. split; [|exact S2]. econstructor; eassumption.
Qed.
