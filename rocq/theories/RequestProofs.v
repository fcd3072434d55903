(** Proofs about the export requests, the application token, networks and data lengths. *)
From Coq Require Import String.
From Verif Require Import Lib Env Bip32 Base58 Address ErgoTree Schnorr Format TxTable TxBox TxFull Amounts OutputInfo InputFrame UiFlow P2pkOp App
  SpecText SpecTree SpecTrace SpecTx SpecApdu SpecScreen SpecPages SpecDispatch SpecRequest TextProofs Base58Proofs TreeProofs Moves SignInput SignRest
  TraceSign TraceAttest AttestProofs TraceScreen NoUb ChunkProofs PageProofs TraceShow TraceUb DispatchProofs.

#[local] Arguments N.eqb : simpl never.
#[local] Arguments N.ltb : simpl never.
#[local] Arguments N.leb : simpl never.
#[local] Arguments N.sub : simpl never.
#[local] Arguments blen : simpl never.
#[local] Arguments num : simpl never.
#[local] Arguments slice : simpl never.

(** ** Keys and addresses *)

Lemma account_path : forall p, ergo_path_validate p V_ACCOUNT_GE3 = true -> is_account_path p.
Proof. intros p H. apply (validate_hard p V_ACCOUNT_GE3) in H; [exact H|right; reflexivity]. Qed.
Lemma address_path_form : forall p, ergo_path_validate p V_ADDRESS_GE5 = true -> is_address_path p.
Proof. intros p H. apply -> validate_address_ge5 in H. exact H. Qed.
Lemma key_at_gen : forall E p pk ch, env_ok E -> generate_public_key E p = Some (pk, ch) -> key_at E p (compress pk) ch /\ length pk = 65%nat.
Proof.
  intros E p pk ch Henv H. unfold generate_public_key in H. destruct (e_derive E p) as [[s c]|] eqn:D; [|discriminate].
  destruct (e_mulG E s) as [w|] eqn:G; [|discriminate]. injection H as -> ->. destruct (ok_mulG_len E Henv _ _ G) as [Lw _].
  split; [|exact Lw]. exists s, pk. split; [exact D|]. split; [exact G|]. apply compress_spec. exact Lw.
Qed.
Lemma valid_network : forall n, network_id_is_valid n = (n <=? 252).
Proof. reflexivity. Qed.
Lemma address_gen : forall E net pk a, ergo_address_from_pubkey (e_blake E) net pk = Some a ->
  net <= 252 /\ a = address E net 1 (compress pk).
Proof.
  intros E net pk a H. unfold ergo_address_from_pubkey, address_of in H. rewrite valid_network in H.
  destruct (net <=? 252) eqn:K; [|discriminate]. apply N.leb_le in K. split; [exact K|].
  assert (U : u8 (1 + net) = net + 1). { unfold u8, two8. rewrite N.add_comm. apply N.mod_small. lia. }
  cbn [negb] in H. rewrite U in H. unfold address. set (body := net + 1 :: compress pk) in *. congruence.
Qed.

Lemma sizes_key : forall q e, In 65 (answer_sizes q e) ->
  (exists cla p1 p2 data r, e = Apdu cla INS_KEY p1 p2 data r) \/ e = UiApprove /\ exists x f pages, q = Some (x, U_EPK, f, pages).
Proof.
  intros q e H. destruct e; cbn [answer_sizes] in H; try (destruct H; fail).
  - destruct (ins =? INS_KEY) eqn:K. { apply N.eqb_eq in K. subst. left. repeat eexists. }
    exfalso. repeat match type of H with context [if ?c then _ else _] => destruct c end; cbn [In] in H; repeat (destruct H as [H|H]; [discriminate|]); destruct H.
  - right. split; [reflexivity|]. destruct q as [[[[[] []] f] pages]|]; try (destruct H; fail); try (eexists _, _, _; reflexivity); exfalso;
      repeat match type of H with context [if ?c then _ else _] => destruct c end; cbn [In] in H; repeat (destruct H as [H|H]; [discriminate|]); destruct H.
  - exfalso. destruct q as [[[[a []] f] pages]|]; cbn [In] in H; repeat (destruct H as [H|H]; [discriminate|]); destruct H.
Qed.
Lemma sizes_address : forall q e, In 38 (answer_sizes q e) ->
  (exists cla p1 p2 data r, e = Apdu cla INS_ADDRESS p1 p2 data r) \/
  e = UiApprove /\ exists cla ins p2 data r f pages, q = Some (Apdu cla ins 1 p2 data r, U_DA, f, pages).
Proof.
  intros q e H. destruct e; cbn [answer_sizes] in H; try (destruct H; fail).
  - destruct (ins =? INS_ADDRESS) eqn:K. { apply N.eqb_eq in K. subst. left. repeat eexists. }
    exfalso. repeat match type of H with context [if ?c then _ else _] => destruct c end; cbn [In] in H; repeat (destruct H as [H|H]; [discriminate|]); destruct H.
  - right. split; [reflexivity|]. destruct q as [[[[[] []] f] pages]|]; try (destruct H; fail).
    2: { destruct (p1 =? 1) eqn:K; [apply N.eqb_eq in K; subst; repeat eexists|]. exfalso. cbn [In] in H. destruct H as [H|[]]. discriminate. }
    all: exfalso; cbn [In] in H; repeat (destruct H as [H|H]; [discriminate|]); destruct H.
  - exfalso. destruct q as [[[[a []] f] pages]|]; cbn [In] in H; repeat (destruct H as [H|H]; [discriminate|]); destruct H.
Qed.

Lemma known_app : forall a b, is_known_application a b = true <-> b <> 0 /\ b = a.
Proof.
  intros a b. unfold is_known_application. rewrite !andb_true_iff, !negb_true_iff, !N.eqb_neq, N.eqb_eq. split; [tauto|]. intros [H ->]. auto.
Qed.
Lemma known_app_sym : forall a b, is_known_application a b = is_known_application b a.
Proof. intros a b. unfold is_known_application. rewrite (N.eqb_sym b a). destruct (a =? 0), (b =? 0); reflexivity. Qed.
Lemma token_remembered : forall E key tr st, env_ok E -> history E key tr st -> st_connected st = remembered tr.
Proof. intros E key tr st Henv H. symmetry. apply (screen_inv_holds E key tr st Henv H). Qed.

Lemma resp_sw_inj : forall b s b' s', [OResp b s] = [OResp b' s'] -> b' = b.
Proof. congruence. Qed.
Lemma resp_ok : forall s b, handler_error s = true -> resp s <> OResp b SW_OK.
Proof. intros s b H K. apply resp_sw in K as [_ <-]. discriminate. Qed.

Ltac other := exfalso; repeat match goal with
  | H : ?e = _ \/ ?e = _ |- _ => destruct H; try congruence
  | H : ?e = _ /\ _ \/ ?e = _ /\ _ |- _ => destruct H as [[? _]|[? _]]; try congruence
  | H : (if ?x then UiApprove else _) = _ |- _ => destruct x; discriminate H
  | H : _ = (if ?x then UiApprove else _) |- _ => destruct x; try congruence
  | H : _ = Apdu _ _ _ _ _ _ |- _ => discriminate H
  | H : Apdu _ _ _ _ _ _ = Apdu _ _ _ _ _ _ |- _ => injection H; intros; subst; discriminate end.
Lemma key_answer : forall E key tr st e b, env_ok E -> history E key (tr ++ [(e, [OResp b SW_OK])]) st -> length b = 65%nat ->
  exists p1 data r, behind tr e U_EPK (Apdu CLA INS_KEY p1 0 data r) /\
    (e = Apdu CLA INS_KEY p1 0 data r -> p1 = 2 /\ known_token tr e) /\
    is_account_path (key_path data) /\ exported_key E (key_path data) b.
Proof.
  intros E key tr st' e b Henv H Lb. pose proof H as Hall.
  destruct (answer_size _ _ _ _ _ _ b SW_OK Henv Hall (or_introl eq_refl)) as [_ S]. specialize (S eq_refl).
  replace (blen b) with 65 in S by (unfold blen; lia). apply history_last in H as (st & Hh & Sh & Hev & Hstep & M & _).
  apply sizes_key in S as [(cla & p1 & p2 & data & r & ->)|(-> & q & f & pages & Ho)].
  - remember [OResp b SW_OK] as outs eqn:Eo. remember (Apdu cla INS_KEY p1 p2 data r) as e eqn:Ee.
    destruct M; try discriminate Ee; try discriminate Eo.
    { exfalso. injection Eo as _ ->. subst e. unfold refused in H. destruct H as [H|[H|[H|[H|H]]]]; decompose [and] H; discriminate. }
    { exfalso. injection Eo as K. destruct H2 as [H2|[_ [K2 _]]]; [exact (resp_ok _ _ H2 K)|]. subst ins. injection Ee. discriminate. }
    { injection Ee; intros; subst. apply resp_sw_inj in Eo. subst b.
      apply parse_epk_spec in H1 as (-> & Ht & L & _ & _). exists p1, data, r. split; [left; reflexivity|].
      rewrite known_app_sym in H4. apply known_app in H4 as [T1 T2]. split.
      { intros _. rewrite token_remembered with (1 := Henv) (2 := Hh) in T2. split.
        - destruct (p1 =? 2) eqn:K; [apply N.eqb_eq in K; exact K|congruence].
        - unfold known_token. rewrite token_key. subst token. auto. }
      split; [apply account_path; exact H2|]. destruct (key_at_gen _ _ _ _ Henv H3) as [G _]. exists (compress pk), chain. auto. }
    all: solve [other].
  - destruct (screen_state _ _ _ _ _ _ _ _ Henv Hh Ho) as (B & U & F & _ & A). unfold shape in Sh.
    destruct (st_ctx st) as [|x|x|x|g] eqn:X.
    + destruct A.
    + destruct A as (p1 & data & r & s & -> & _ & _ & V & G & _ & _ & _ & ->). exists p1, data, r.
      split; [right; split; [reflexivity|eauto]|]. split; [discriminate|]. split; [apply account_path; exact V|].
      cbn [step] in Hstep. unfold ui_action in Hstep. rewrite U, X in Hstep. cbn in Hstep.
      apply (f_equal snd) in Hstep. cbn [snd] in Hstep. apply resp_sw_inj in Hstep. subst b.
      destruct (key_at_gen _ _ _ _ Henv G) as [K _]. eexists _, _. split; [exact K|reflexivity].
    + destruct Sh as (_ & S & _). congruence.
    + destruct Sh as (_ & S). destruct (at_state x); destruct S as [S1 S2]; congruence.
    + destruct Sh as (_ & S). destruct (sg_state g); [destruct S as (_ & S & _); congruence|].
      destruct S as [[S _]|[(_ & S & _)|[_ S]]]; congruence.
Qed.

Lemma address_answer : forall E key tr st e b, env_ok E -> history E key (tr ++ [(e, [OResp b SW_OK])]) st -> length b = 38%nat ->
  exists p2 data r, behind tr e U_DA (Apdu CLA INS_ADDRESS 1 p2 data r) /\
    (e = Apdu CLA INS_ADDRESS 1 p2 data r -> p2 = 2 /\ known_token tr e) /\
    is_address_path (address_path data) /\ address_network data <= 252 /\
    address_at E (address_network data) (address_path data) b.
Proof.
  intros E key tr st' e b Henv H Lb. pose proof H as Hall.
  destruct (answer_size _ _ _ _ _ _ b SW_OK Henv Hall (or_introl eq_refl)) as [_ S]. specialize (S eq_refl).
  replace (blen b) with 38 in S by (unfold blen; lia). apply history_last in H as (st & Hh & Sh & Hev & Hstep & M & _).
  apply sizes_address in S as [(cla & p1 & p2 & data & r & ->)|(-> & cla & ins & p2 & data & r & f & pages & Ho)].
  - remember [OResp b SW_OK] as outs eqn:Eo. remember (Apdu cla INS_ADDRESS p1 p2 data r) as e eqn:Ee.
    destruct M; try discriminate Ee; try discriminate Eo.
    { exfalso. injection Eo as _ ->. subst e. unfold refused in H. destruct H as [H|[H|[H|[H|H]]]]; decompose [and] H; discriminate. }
    { exfalso. injection Eo as K. destruct H2 as [H2|[_ [K2 _]]]; [exact (resp_ok _ _ H2 K)|]. subst ins. injection Ee. discriminate. }
    { other. }
    { injection Ee; intros; subst. apply resp_sw_inj in Eo. subst b.
      apply parse_da_spec in H1 as (-> & -> & Ht & L & _). exists p2, data, r. split; [left; reflexivity|].
      rewrite known_app_sym in H5. apply known_app in H5 as [T1 T2]. split.
      { intros _. rewrite token_remembered with (1 := Henv) (2 := Hh) in T2. split.
        - destruct (p2 =? 2) eqn:K; [apply N.eqb_eq in K; exact K|congruence].
        - unfold known_token. rewrite token_other by discriminate. subst token. auto. }
      split; [apply address_path_form; exact H2|]. destruct (key_at_gen _ _ _ _ Henv H3) as [G _]. apply address_gen in H4 as [G1 ->].
      split; [exact G1|]. eexists _, _. split; [exact G|reflexivity]. }
    all: solve [other].
  - destruct (screen_state _ _ _ _ _ _ _ _ Henv Hh Ho) as (B & U & F & _ & A). unfold shape in Sh.
    destruct (st_ctx st) as [|x|x|x|g] eqn:X.
    + destruct A.
    + destruct Sh as (_ & S & _). congruence.
    + destruct A as (p1 & p2' & data' & r' & pk & ch & ff & Eq & _ & _ & _ & V & G & Ad & _ & Sd & _ & _ & ->). injection Eq; intros; subst.
      exists p2', data', r'. split; [right; split; [reflexivity|eauto]|]. split; [discriminate|]. split; [apply address_path_form; exact V|].
      cbn [step] in Hstep. unfold ui_action in Hstep. rewrite U, X in Hstep. cbn in Hstep. unfold ui_action_da in Hstep. rewrite Sd in Hstep. change (1 =? 1) with true in Hstep. cbv iota beta in Hstep.
      apply (f_equal snd) in Hstep. cbn [snd] in Hstep. apply resp_sw_inj in Hstep. subst b.
      destruct (key_at_gen _ _ _ _ Henv G) as [K _]. apply address_gen in Ad as [G1 ->]. split; [exact G1|]. eexists _, _. split; [exact K|reflexivity].
    + destruct Sh as (_ & S). destruct (at_state x); destruct S as [S1 S2]; congruence.
    + destruct Sh as (_ & S). destruct (sg_state g); [destruct S as (_ & S & _); congruence|].
      destruct S as [[S _]|[(_ & S & _)|[_ S]]]; congruence.
Qed.

(** ** Screens *)

Lemma hex_same : forall n, n < 16 -> hex_digit_lower n = hex_lower n.
Proof.
  intros n H. assert (K : In n [0;1;2;3;4;5;6;7;8;9;10;11;12;13;14;15]).
  { cbn [In]. lia. }
  cbn [In] in K. repeat (destruct K as [<-|K]; [reflexivity|]). destruct K.
Qed.
Lemma token_text_same : forall t, t < 2 ^ 32 -> app_id_text t = token_text t.
Proof.
  intros t H. unfold app_id_text, token_text. f_equal. unfold be_bytes.
  change (seq 0 8) with [0;1;2;3;4;5;6;7]%nat. cbn [map rev List.app concat Nat.sub].
  assert (D : forall a, a mod 16 < 16) by (intro; apply N.mod_lt; discriminate).
  assert (Q : forall a, (a mod 256) / 16 = (a / 16) mod 16) by (intro a; zify; Z.to_euclidean_division_equations; lia).
  assert (R : forall a, (a mod 256) mod 16 = a mod 16) by (intro a; zify; Z.to_euclidean_division_equations; lia).
  rewrite !Q, !R, !N.div_div by discriminate. rewrite !hex_same by apply D.
  replace (t mod 16) with ((t / 16 ^ N.of_nat 0) mod 16) at 1 by (cbn; rewrite N.div_1_r; reflexivity). reflexivity.
Qed.
Lemma token_small : forall e, event_ok e -> token_of e < 2 ^ 32.
Proof.
  intros e H. destruct e; try (cbn; lia). destruct H as (_ & _ & _ & _ & H & _). cbn [token_of]. unfold request_token.
  destruct (has_token ins p1 p2); [|cbn; lia]. exact (num_bound (length data - 4) 4 data H).
Qed.
Lemma epk_form : forall token t, token < 2 ^ 32 ->
  epk_flow token (SC_PATH (str "Path") t false) =
  [SC_INFO (str "Ext PubKey Export"); SC_PATH (str "Path") t false] ++ token_screen token ++ question_end.
Proof.
  intros token t H. unfold epk_flow, token_screen. rewrite (add_short _ []) by reflexivity. rewrite (add_short (SC_PATH _ _ _)) by reflexivity.
  cbv zeta. destruct (token =? 0); [reflexivity|]. rewrite add_short by reflexivity. unfold ui_application_id_screen. rewrite token_text_same by assumption.
  reflexivity.
Qed.
Lemma account_last : forall p, is_account_path p -> 2 ^ 31 <= last p 0 /\ (3 <= length p)%nat.
Proof.
  intros p (a & t & -> & F). split; [|cbn [length]; lia]. change (last (2 ^ 31 + 44 :: 2 ^ 31 + 429 :: a :: t) 0) with (last (a :: t) 0).
  assert (I : In (last (a :: t) 0) (a :: t)).
  { destruct (@exists_last _ (a :: t) ltac:(discriminate)) as (u & x & ->). rewrite last_last. apply in_or_app. right. left. reflexivity. }
  rewrite Forall_forall in F. exact (F _ I).
Qed.
Lemma path_screen_shown : forall cap p t, bip32_path_format cap p = Some t -> Forall (fun x => x < 2 ^ 32) p -> path_shown cap p t /\
  (2 ^ 31 <= last p 0 -> is_path_text p t).
Proof.
  intros cap p t H F. pose proof (path_format_range _ _ _ H) as R. destruct (path_format_complete cap p R F) as (full & T & _ & K).
  destruct (K t H) as [L [->|(L1 & L2 & L3)]].
  - split; [|auto]. exists full. auto.
  - split; [|intro; lia]. exists full. split; [exact T|]. destruct (Nat.le_gt_cases cap (length full)) as [C|C].
    + right. split; [exact C|]. rewrite <- L1. exact L2.
    + left. rewrite L2, L1. apply firstn_all2. lia.
Qed.

Lemma key_screen : forall E key tr st e f pages, env_ok E -> history E key tr st -> on_screen tr = Some (e, U_EPK, f, pages) ->
  exists p1 data r t, e = Apdu CLA INS_KEY p1 0 data r /\ is_account_path (key_path data) /\ is_path_text (key_path data) t /\ pages = [] /\
    f = [SC_INFO (str "Ext PubKey Export"); SC_PATH (str "Path") t false] ++ token_screen (token_of e) ++ question_end.
Proof.
  intros E key tr st e f pages Henv H Ho. destruct (screen_state _ _ _ _ _ _ _ _ Henv H Ho) as (B & U & F & Hev & A).
  pose proof (history_shape _ _ _ _ H) as Sh. unfold shape in Sh. destruct (st_ctx st) as [|x|x|x|g] eqn:X.
  - destruct A.
  - destruct A as (p1 & data & r & s & -> & _ & _ & V & G & _ & S & Fl & ->). apply account_path in V.
    unfold ui_bip32_path_screen in S. destruct (bip32_path_format 60 (key_path data)) as [t|] eqn:T; [|discriminate]. injection S as <-.
    exists p1, data, r, t. split; [reflexivity|]. split; [exact V|].
    apply path_screen_shown in T as [_ T]; [|apply path_at_ok; apply Hev]. split; [apply T, account_last, V|]. split; [reflexivity|].
    rewrite <- F, Fl. apply epk_form, token_small, Hev.
  - destruct Sh as (_ & S & _). congruence.
  - destruct Sh as (_ & S). destruct (at_state x); destruct S as [S1 S2]; congruence.
  - destruct Sh as (_ & S). destruct (sg_state g); [destruct S as (_ & S & _); congruence|].
    destruct S as [[S _]|[(_ & S & _)|[_ S]]]; congruence.
Qed.

Lemma address_ok : forall E net pk a, env_ok E -> length pk = 65%nat -> bytes_ok pk = true -> ergo_address_from_pubkey (e_blake E) net pk = Some a ->
  bytes_ok a = true /\ length a = 38%nat.
Proof.
  intros E net pk a Henv L O H. apply address_gen in H as [N ->]. rewrite (compress_spec pk L). unfold address.
  pose proof (compressed_length pk L) as LC. set (body := net + 1 :: compressed pk).
  assert (LB : length body = 34%nat) by (unfold body; cbn [length]; lia).
  assert (OB : bytes_ok body = true).
  { unfold body, compressed. apply bytes_ok_cons. split; [lia|]. apply bytes_ok_cons. split; [destruct (N.odd _); lia|].
    apply bytes_ok_firstn. destruct pk; [exact O|]. apply bytes_ok_cons in O. apply O. }
  split.
  - rewrite bytes_ok_app, OB. apply bytes_ok_firstn, (ok_blake_bytes E Henv).
  - rewrite app_length, firstn_length, (ok_blake_len E Henv), LB. reflexivity.
Qed.
Lemma gen_key_ok : forall E p pk ch, env_ok E -> generate_public_key E p = Some (pk, ch) -> length pk = 65%nat /\ bytes_ok pk = true.
Proof.
  intros E p pk ch Henv H. unfold generate_public_key in H. destruct (e_derive E p) as [[s c]|] eqn:D; [|discriminate].
  destruct (e_mulG E s) as [w|] eqn:G; [|discriminate]. injection H as -> ->. exact (ok_mulG_len E Henv _ _ G).
Qed.
Lemma da_flow : forall (send : bool) token p addr f, token < 2 ^ 32 -> bytes_ok addr = true -> length addr = 38%nat ->
  da_screens send token p addr = Ok f ->
  exists t a, bip32_path_format 60 p = Some t /\ is_base58 addr a /\
    f ++ [SC_LOOP; SC_END] = [SC_INFO (str (if send then "Confirm Send Address" else "Confirm Address")); SC_PATH (str "Path") t false] ++
        (if send then [] else [SC_TEXT (str "Address") a]) ++ token_screen token ++ question_end.
Proof.
  intros send token p addr f HT HA HL H. unfold da_screens, ui_bip32_path_screen in H.
  destruct (bip32_path_format 60 p) as [t|] eqn:T; [|discriminate].
  destruct (base58_exact addr P2PK_ADDRESS_STRING_MAX_LEN HA) as (a & B & Ea); [unfold blen; lia|].
  exists t, a. split; [reflexivity|]. split; [exact B|].
  rewrite (add_short (SC_INFO _) []) in H by reflexivity. rewrite (add_short (SC_PATH _ _ _)) in H by reflexivity. cbv zeta in H. cbn [List.app] in H.
  set (f0 := [SC_INFO (str (if send then "Confirm Send Address" else "Confirm Address")); SC_PATH (str "Path") t false]) in *.
  assert (E1 : exists f1, (if send then Ok f0 else match base58_encode addr P2PK_ADDRESS_STRING_MAX_LEN with
                | Some t0 => if Nat.leb P2PK_ADDRESS_STRING_MAX_LEN (length t0) then Fail SW_ADDRESS_FORMATTING_FAILED
                             else Ok (add (SC_TEXT (str "Address") t0) f0)
                | None => Fail SW_ADDRESS_FORMATTING_FAILED end) = Ok f1 /\ f1 = f0 ++ (if send then [] else [SC_TEXT (str "Address") a]) /\
       bind (Ok f1) (fun f => match ui_approve_reject_screens (if token =? 0 then f else add (ui_application_id_screen token) f) with
                     | None => Fail SW_UB | Some f => Ok f end) = Ok f).
  { destruct send.
    - exists f0. split; [reflexivity|]. split; [rewrite app_nil_r; reflexivity|]. exact H.
    - rewrite Ea in H |- *. destruct (Nat.ltb _ _); [discriminate|]. destruct (Nat.leb _ _); [discriminate|].
      rewrite add_short in H |- * by reflexivity. eexists. split; [reflexivity|]. split; [reflexivity|exact H]. }
  destruct E1 as (f1 & _ & Ef & H1). cbn [bind] in H1. unfold token_screen.
  assert (L1 : (length f1 <= 3)%nat) by (rewrite Ef, app_length; destruct send; cbn; lia).
  destruct (token =? 0).
  - assert (F1 : ui_approve_reject_screens f1 = Some (f1 ++ [SC_APPROVE; SC_REJECT])) by (unfold ui_approve_reject_screens, MAX_NUMBER_OF_SCREENS, blen; case_if; [lia|reflexivity]). rewrite F1 in H1. assert (Hf : f = f1 ++ [SC_APPROVE; SC_REJECT]) by congruence.
    rewrite Hf, Ef, <- !app_assoc. reflexivity.
  - rewrite add_short in H1 by (unfold blen; lia). assert (F1 : ui_approve_reject_screens (f1 ++ [ui_application_id_screen token]) = Some ((f1 ++ [ui_application_id_screen token]) ++ [SC_APPROVE; SC_REJECT])) by (unfold ui_approve_reject_screens, MAX_NUMBER_OF_SCREENS, blen; rewrite app_length; cbn [length]; case_if; [lia|reflexivity]).
    rewrite F1 in H1. assert (Hf : f = (f1 ++ [ui_application_id_screen token]) ++ [SC_APPROVE; SC_REJECT]) by congruence.
    rewrite Hf, Ef. unfold ui_application_id_screen. rewrite token_text_same by assumption. rewrite <- !app_assoc. reflexivity.
Qed.

Lemma address_screen : forall E key tr st e f pages, env_ok E -> history E key tr st -> on_screen tr = Some (e, U_DA, f, pages) ->
  exists p1 p2 data r t addr a, e = Apdu CLA INS_ADDRESS p1 p2 data r /\ (p1 = 1 \/ p1 = 2) /\
    is_address_path (address_path data) /\ path_shown 60 (address_path data) t /\
    address_network data <= 252 /\ address_at E (address_network data) (address_path data) addr /\ is_base58 addr a /\ pages = [] /\
    f = [SC_INFO (str (if p1 =? 1 then "Confirm Send Address" else "Confirm Address")); SC_PATH (str "Path") t false] ++
        (if p1 =? 1 then [] else [SC_TEXT (str "Address") a]) ++ token_screen (token_of e) ++ question_end.
Proof.
  intros E key tr st e f pages Henv H Ho. destruct (screen_state _ _ _ _ _ _ _ _ Henv H Ho) as (B & U & F & Hev & A).
  pose proof (history_shape _ _ _ _ H) as Sh. unfold shape in Sh. destruct (st_ctx st) as [|x|x|x|g] eqn:X.
  - destruct A.
  - destruct Sh as (_ & S & _). congruence.
  - destruct A as (p1 & p2 & data & r & pk & ch & ff & -> & P1 & _ & _ & V & G & Ad & _ & _ & S & Fl & ->).
    destruct (gen_key_ok _ _ _ _ Henv G) as [G1 G2]. destruct (address_ok _ _ _ _ Henv G1 G2 Ad) as [A1 A2].
    destruct (da_flow _ _ _ _ _ (token_small _ Hev) A1 A2 S) as (t & a & T & Ba & Ff).
    apply path_screen_shown in T as [T _]; [|apply path_at_ok; apply Hev]. pose proof (address_gen _ _ _ _ Ad) as [N1 Da].
    exists p1, p2, data, r, t, (da_address x), a. split; [reflexivity|].
    split. { unfold one_or_two in P1. apply orb_true_iff in P1. rewrite !N.eqb_eq in P1. exact P1. }
    split; [apply address_path_form, V|]. split; [exact T|]. split; [exact N1|].
    split. { destruct (key_at_gen _ _ _ _ Henv G) as [K _]. eexists _, _. split; [exact K|exact Da]. }
    split; [exact Ba|]. split; [reflexivity|]. rewrite <- F, Fl, Ff. reflexivity.
  - destruct Sh as (_ & S). destruct (at_state x); destruct S as [S1 S2]; congruence.
  - destruct Sh as (_ & S). destruct (sg_state g); [destruct S as (_ & S & _); congruence|].
    destruct S as [[S _]|[(_ & S & _)|[_ S]]]; congruence.
Qed.
Lemma attest_screen : forall E key tr st e f pages, env_ok E -> history E key tr st -> on_screen tr = Some (e, U_ATTEST, f, pages) ->
  exists p2 data r, e = Apdu CLA INS_ATTEST 1 p2 data r /\ pages = [] /\
    f = [SC_INFO (str "Confirm Attest Input")] ++ token_screen (token_of e) ++ question_end.
Proof.
  intros E key tr st e f pages Henv H Ho. destruct (screen_state _ _ _ _ _ _ _ _ Henv H Ho) as (B & U & F & Hev & A).
  pose proof (history_shape _ _ _ _ H) as Sh. unfold shape in Sh. destruct (st_ctx st) as [|x|x|x|g] eqn:X.
  - destruct A.
  - destruct Sh as (_ & S & _). congruence.
  - destruct Sh as (_ & S & _). congruence.
  - destruct A as (p2 & data & r & -> & _ & _ & Fl & -> & _). exists p2, data, r. split; [reflexivity|]. split; [reflexivity|].
    rewrite <- F, Fl. unfold attest_flow, token_screen. rewrite (add_short (SC_INFO _) []) by reflexivity. cbv zeta.
    destruct (token_of _ =? 0); [reflexivity|]. rewrite add_short by reflexivity. unfold ui_application_id_screen.
    rewrite token_text_same by (apply token_small, Hev). reflexivity.
  - destruct Sh as (_ & S). destruct (sg_state g); [destruct S as (_ & S & _); congruence|].
    destruct S as [[S _]|[(_ & S & _)|[_ S]]]; congruence.
Qed.

(** ** The application token *)

Lemma known_spec : forall E key tr st e, env_ok E -> history E key tr st ->
  is_known_application (st_connected st) (token_of e) = true <-> known_token tr e.
Proof. intros E key tr st e Henv H. rewrite known_app, (token_remembered _ _ _ _ Henv H). reflexivity. Qed.
Lemma known_cases_of : forall E key tr st e (b : bool), env_ok E -> history E key tr st ->
  is_known_application (st_connected st) (token_of e) = b -> if b then known_token tr e else ~ known_token tr e.
Proof.
  intros E key tr st e b Henv H <-. destruct (is_known_application (st_connected st) (token_of e)) eqn:K.
  - apply (known_spec _ _ _ _ _ Henv H). exact K.
  - intro C. apply (known_spec _ _ _ _ _ Henv H) in C. congruence.
Qed.
Lemma sw_not_ok : forall s d, handler_error s = true -> accepted [OResp d s] = false.
Proof. intros [] d H; try discriminate H; reflexivity. Qed.

(** An accepted request that may be answered at once. *)
Definition at_once (e : event) : Prop :=
  exists ins p1 p2 data r, e = Apdu CLA ins p1 p2 data r /\ (ins = INS_KEY \/ (ins = INS_ADDRESS \/ ins = INS_ATTEST) /\ p1 = 1).
Lemma token_decides : forall E key tr st e outs, env_ok E -> history E key (tr ++ [(e, outs)]) st -> accepted outs = true -> at_once e ->
  known_token tr e /\ (exists b, outs = [OResp b SW_OK]) \/ ~ known_token tr e /\ (exists k f, outs = [OShow k f []]).
Proof.
  intros E key tr st' e outs Henv H Ha (ins & p1 & p2 & data & r & Ee & Hi).
  apply history_last in H as (st & Hh & Sh & Hev & Hstep & M & _).
  destruct M; try discriminate Ha; try discriminate Ee; try (other; fail).
  { exfalso. unfold refused in H. subst e. destruct s; try discriminate Ha.
    destruct H as [H|[H|[H|[H|H]]]]; decompose [and] H; discriminate. }
  { exfalso. injection Ee; intros; subst. destruct Hi as [K|[[K|K] _]]; discriminate K. }
  { exfalso. injection Ee; intros; subst. destruct Hi as [K|[[K|K] _]]; discriminate K. }
  { exfalso. destruct H2 as [H2|[-> _]]; [|discriminate]. destruct s; discriminate. }
  { left. apply parse_epk_spec in H1 as (-> & Ht & _). rewrite known_app_sym, Ht, <- (token_key p0 data0 r0) in H4.
    apply (known_cases_of _ _ _ _ _ _ Henv Hh) in H4. split; [exact H4|eauto]. }
  { right. apply parse_epk_spec in H1 as (-> & Ht & _). rewrite known_app_sym, Ht, <- (token_key p0 data0 r0) in H4.
    apply (known_cases_of _ _ _ _ _ _ Henv Hh) in H4. split; [exact H4|eauto]. }
  { left. apply parse_da_spec in H1 as (-> & -> & Ht & _). rewrite known_app_sym, Ht, <- (token_other INS_ADDRESS 1 p0 data0 r0) in H5 by discriminate.
    apply (known_cases_of _ _ _ _ _ _ Henv Hh) in H5. split; [exact H5|eauto]. }
  { right. assert (P : p0 = 1). { injection Ee; intros; subst. destruct Hi as [K|[_ K]]; [discriminate K|exact K]. }
    specialize (H6 P). subst p0.
    apply parse_da_spec in H2 as (-> & -> & Ht & _). rewrite known_app_sym, Ht, <- (token_other INS_ADDRESS 1 p3 data0 r0) in H6 by discriminate.
    apply (known_cases_of _ _ _ _ _ _ Henv Hh) in H6. split; [exact H6|eauto]. }
  { left. assert (Hb : bytes_ok data0 = true) by apply Hev. rewrite (parse_attest_token _ _ _ Hb H1) in H4. rewrite <- (token_other INS_ATTEST 1 p0 data0 r0) in H4 by discriminate.
    apply (known_cases_of _ _ _ _ _ _ Henv Hh) in H4. split; [exact H4|eauto]. }
  { right. assert (Hb : bytes_ok data0 = true) by apply Hev. rewrite (parse_attest_token _ _ _ Hb H1) in H4. rewrite <- (token_other INS_ATTEST 1 p0 data0 r0) in H4 by discriminate.
    apply (known_cases_of _ _ _ _ _ _ Henv Hh) in H4. split; [exact H4|eauto]. }
  all: exfalso; injection Ee; intros; subst; destruct Hi as [K|[[K|K] Hp]]; try discriminate K; try discriminate Hp.
  all: rewrite Hp in *; match goal with K : attest_call 1 _ = Some _ |- _ => discriminate K end.
Qed.
Lemma sign_screen : forall E key tr st e f pages, env_ok E -> history E key (tr ++ [(e, [OShow U_STX_APPROVE f pages])]) st ->
  exists p2 data r t app, e = Apdu CLA INS_SIGN 1 p2 data r /\ path_shown 60 (start_path data) t /\ pages = [] /\
    f = SC_PATH (str "P2PK Signing") t true :: app ++ question_end /\
    (known_token tr e /\ app = [] \/ ~ known_token tr e /\ app = [SC_TEXT (str "Application") (token_text (token_of e))]).
Proof.
  intros E key tr st' e f pages Henv H. apply history_last in H as (st & Hh & Sh & Hev & Hstep & M & _).
  remember [OShow U_STX_APPROVE f pages] as outs eqn:Eo.
  destruct M; try discriminate Eo; try (destruct s; discriminate Eo); try (destruct b; discriminate Eo).
  assert (F0 : f = f0) by congruence. assert (P0 : pages = []) by congruence. clear Eo. subst f0 pages.
  pose proof H1 as Hp. apply parse_sign_token in H1 as (Ht & _ & _).
  apply show_token_flow in H4 as (x & X & Fl). 
  apply parse_sign_spec in Hp as (_ & Hp & _). pose proof H2 as Hi. unfold p2pk_init in Hi.
  assert (Hpath : op_path op = p).
  { destruct (negb _); [discriminate|]. destruct (negb _); [discriminate|]. destruct (e_derive E p) as [[sec ch]|]; [|discriminate].
    destruct (schnorr_sign_init E sec (r_nonces r)) as [[hh kk]|]; [|discriminate]. injection Hi as <-. reflexivity. }
  rewrite Hpath, Hp in X. apply path_screen_shown in X as [X _]; [|apply path_at_ok; apply Hev].
  rewrite Ht, <- (token_other INS_SIGN 1 p2 data r) in Fl by discriminate.
  exists p2, data, r, x, (if is_known_application (st_connected st) (token_of (Apdu CLA INS_SIGN 1 p2 data r)) then []
     else [SC_TEXT (str "Application") (token_text (token_of (Apdu CLA INS_SIGN 1 p2 data r)))]).
  split; [reflexivity|]. split; [exact X|]. split; [reflexivity|]. split.
  { rewrite Fl. unfold sign_flow. rewrite token_text_same by (apply token_small, Hev). reflexivity. }
  pose proof (known_cases_of _ _ _ _ _ _ Henv Hh (eq_refl (is_known_application (st_connected st) (token_of (Apdu CLA INS_SIGN 1 p2 data r))))) as K.
  destruct (is_known_application _ _); auto.
Qed.

(** ** Networks *)

Lemma sign_step : forall E st p1 p2 data r, p1 <> 0 -> p2 <> 0 ->
  step E st (Apdu CLA INS_SIGN p1 p2 data r) = handler_sign E st data p1 p2 r.
Proof.
  intros E st p1 p2 data r H1 H2. rewrite step_params by reflexivity. unfold params_ok.
  change (INS_SIGN =? INS_VERSION) with false. change (INS_SIGN =? INS_NAME) with false. change (INS_SIGN =? INS_KEY) with false.
  change (INS_SIGN =? INS_ADDRESS) with false. cbn [orb]. apply N.eqb_neq in H1, H2. rewrite H1, H2. reflexivity.
Qed.
Lemma err_not_accepted : forall st s, handler_error s = true -> accepted (snd (handler_err st s)) = false.
Proof. intros st s H. unfold handler_err, resp. destruct s; try discriminate H; reflexivity. Qed.
Lemma sign_params : forall E st p1 p2 data r, accepted (snd (step E st (Apdu CLA INS_SIGN p1 p2 data r))) = true -> p1 <> 0 /\ p2 <> 0.
Proof.
  intros E st p1 p2 data r H. rewrite step_params in H by reflexivity. unfold params_ok in H.
  change (INS_SIGN =? INS_VERSION) with false in H. change (INS_SIGN =? INS_NAME) with false in H. change (INS_SIGN =? INS_KEY) with false in H.
  change (INS_SIGN =? INS_ADDRESS) with false in H. cbn [orb] in H.
  destruct (N.eqb_spec p1 0) as [->|]; [discriminate H|]. destruct (N.eqb_spec p2 0) as [->|]; [discriminate H|]. auto.
Qed.
Lemma supported_iff : forall n, network_id_is_supported n = true <-> n = 0 \/ n = 0x10.
Proof. intro n. unfold network_id_is_supported, network_id_is_mainnet, network_id_is_testnet. rewrite orb_true_iff, !N.eqb_eq. tauto. Qed.
Lemma sign_network : forall E st p2 net rest r, accepted (snd (step E st (Apdu CLA INS_SIGN 1 p2 (net :: rest) r))) = true ->
  (net = 0 \/ net = 0x10) /\
  forall net', accepted (snd (step E st (Apdu CLA INS_SIGN 1 p2 (net' :: rest) r))) = true <-> net' = 0 \/ net' = 0x10.
Proof.
  intros E st p2 net rest r H. pose proof (sign_params _ _ _ _ _ _ H) as [P1 P2]. rewrite sign_step in H by assumption.
  unfold handler_sign in H. destruct (st_busy st) eqn:B; [discriminate H|]. change (1 =? 1) with true in H. cbv iota in H.
  destruct (negb (p2 =? 1) && negb (p2 =? 2)) eqn:P; [discriminate H|].
  unfold sign_init, parse_sign_init in H. rewrite read_u8_cons in H. cbn [rd bind] in H.
  assert (K : forall net', snd (step E st (Apdu CLA INS_SIGN 1 p2 (net' :: rest) r)) =
     snd (sign_init E (set_command st CMD_SIGN) (net' :: rest) (p2 =? 2) r)).
  { intro net'. rewrite sign_step by assumption. unfold handler_sign. rewrite B. change (1 =? 1) with true. cbv iota. rewrite P. reflexivity. }
  destruct (stx_read_bip32_path rest) as [[p l]|s] eqn:Hp.
  2: { pose proof (nok_stx_path rest) as N. rewrite Hp in N. cbn [bind] in H. rewrite err_not_accepted in H by exact N. discriminate. }
  cbn [bind] in H. destruct (rd_token (p2 =? 2) l) as [[t l']|s] eqn:Ht.
  2: { pose proof (nok_token (p2 =? 2) l) as N. rewrite Ht in N. cbn [bind] in H. rewrite err_not_accepted in H by exact N. discriminate. }
  cbn [bind] in H. unfold finished in H. destruct l'; [|discriminate H].
  unfold p2pk_init in H. destruct (negb (ergo_path_validate p V_ADDRESS_GE5)) eqn:V; [discriminate H|].
  assert (N1 : network_id_is_supported net = true). { destruct (network_id_is_supported net); [reflexivity|discriminate H]. }
  rewrite N1 in H. cbn [negb] in H. destruct (e_derive E p) as [[sec ch]|] eqn:D; [|discriminate H].
  destruct (schnorr_sign_init E sec (r_nonces r)) as [[hh kk]|] eqn:Sc; [|discriminate H].
  destruct (session_id_new_random 0 (r_ids r)) as [sid|] eqn:I; [|discriminate H].
  split; [apply supported_iff, N1|]. intro net'. rewrite K. unfold sign_init, parse_sign_init. rewrite read_u8_cons. cbn [rd bind].
  rewrite Hp. cbn [bind]. rewrite Ht. cbn [bind finished]. unfold p2pk_init. rewrite V. rewrite <- supported_iff.
  destruct (network_id_is_supported net') eqn:N2; cbn [negb].
  - rewrite D, Sc, I. split; [reflexivity|]. intros _.
    unfold p2pk_show_token_and_path in H |- *. cbn [op_path] in H |- *.
    destruct (ui_bip32_path_screen p (str "P2PK Signing") 60 true) as [s|]; [|discriminate H].
    destruct (add_operation_approve_screens (add s []) t (is_known_application (st_connected (set_command st CMD_SIGN)) t)) as [f|s'] eqn:Af.
    2: { assert (N : nok (add_operation_approve_screens (add s []) t (is_known_application (st_connected (set_command st CMD_SIGN)) t)))
           by (unfold add_operation_approve_screens; noks).
         rewrite Af in N. cbn [bind] in H. rewrite err_not_accepted in H by exact N. discriminate. }
    cbn [bind] in H |- *. destruct (display f) as [f'|s'] eqn:Df.
    2: { pose proof (nok_display f) as N. rewrite Df in N. cbn [bind] in H. rewrite err_not_accepted in H by exact N. discriminate. }
    reflexivity.
  - split; discriminate.
Qed.
Lemma address_step : forall E st p1 p2 data r,
  step E st (Apdu CLA INS_ADDRESS p1 p2 data r) =
  if one_or_two p1 && one_or_two p2 then handler_da E st data (p1 =? 2) (p2 =? 2) else (st, [OResp [] SW_WRONG_P1P2]).
Proof.
  intros E st p1 p2 data r. rewrite step_params by reflexivity. unfold params_ok.
  change (INS_ADDRESS =? INS_VERSION) with false. change (INS_ADDRESS =? INS_NAME) with false. change (INS_ADDRESS =? INS_KEY) with false.
  change (INS_ADDRESS =? INS_ADDRESS) with true. cbn [orb]. destruct (one_or_two p1 && one_or_two p2); reflexivity.
Qed.
Lemma address_from : forall E net pk, (ergo_address_from_pubkey (e_blake E) net pk = None <-> 252 < net).
Proof.
  intros E net pk. unfold ergo_address_from_pubkey, address_of. rewrite valid_network. destruct (net <=? 252) eqn:K.
  - apply N.leb_le in K. split; [discriminate|lia].
  - apply N.leb_gt in K. split; [intros _; exact K|reflexivity].
Qed.
Lemma da_total : forall send token p addr addr' f, bytes_ok addr' = true -> length addr' = 38%nat ->
  da_screens send token p addr = Ok f -> exists f', da_screens send token p addr' = Ok f'.
Proof.
  intros send token p addr addr' f O L H. unfold da_screens in H |- *.
  destruct (ui_bip32_path_screen p (str "Path") 60 false) as [s|]; [|discriminate].
  set (f0 := add s (add (SC_INFO (str (if send then "Confirm Send Address" else "Confirm Address"))) [])) in *. cbv zeta in *.
  assert (L0 : length f0 = 2%nat) by reflexivity.
  assert (G : forall f1, (length f1 <= 3)%nat -> exists f', match ui_approve_reject_screens (if token =? 0 then f1 else add (ui_application_id_screen token) f1) with
                     | None => Fail SW_UB | Some f => Ok f end = Ok f').
  { intros f1 L1. destruct (token =? 0).
    - destruct (fits f1) as (g & -> & _); [lia|]. eauto.
    - rewrite add_short by (unfold blen; lia). destruct (fits (f1 ++ [ui_application_id_screen token])) as (g & -> & _); [rewrite app_length; cbn [length]; lia|]. eauto. }
  destruct send; [exact (G f0 ltac:(lia))|].
  destruct (base58_fits addr' P2PK_ADDRESS_STRING_MAX_LEN O) as (t & -> & Lt); [lia|unfold P2PK_ADDRESS_STRING_MAX_LEN; lia|].
  replace (Nat.leb P2PK_ADDRESS_STRING_MAX_LEN (length t)) with false by (symmetry; apply Nat.leb_gt; unfold P2PK_ADDRESS_STRING_MAX_LEN; lia).
  cbn [bind]. apply G. rewrite add_short by reflexivity. rewrite app_length, L0. cbn [length]. lia.
Qed.
Lemma address_networks : forall E st p1 p2 net rest r, env_ok E ->
  accepted (snd (step E st (Apdu CLA INS_ADDRESS p1 p2 (net :: rest) r))) = true ->
  net <= 252 /\
  forall net', accepted (snd (step E st (Apdu CLA INS_ADDRESS p1 p2 (net' :: rest) r))) = true <-> net' <= 252.
Proof.
  intros E st p1 p2 net rest r Henv H. rewrite address_step in H.
  assert (K : forall net', snd (step E st (Apdu CLA INS_ADDRESS p1 p2 (net' :: rest) r)) =
     snd (if one_or_two p1 && one_or_two p2 then handler_da E st (net' :: rest) (p1 =? 2) (p2 =? 2) else (st, [OResp [] SW_WRONG_P1P2])))
    by (intro; rewrite address_step; reflexivity).
  destruct (one_or_two p1 && one_or_two p2); [|discriminate H]. unfold handler_da in H. destruct (st_busy st) eqn:B; [discriminate H|].
  unfold parse_da in H. rewrite read_u8_cons in H. cbn [rd bind] in H.
  destruct (rd (read_u8 rest)) as [[n l0]|s] eqn:Hn; cbn [bind] in H.
  2: { pose proof (nok_rd _ (read_u8 rest)) as N. rewrite Hn in N. rewrite err_not_accepted in H by exact N. discriminate. }
  destruct (rd (read_bip32_path n l0)) as [[p l]|s] eqn:Hp; cbn [bind] in H.
  2: { pose proof (nok_rd _ (read_bip32_path n l0)) as N. rewrite Hp in N. rewrite err_not_accepted in H by exact N. discriminate. }
  destruct (rd_token (p2 =? 2) l) as [[t l']|s] eqn:Ht; cbn [bind] in H.
  2: { pose proof (nok_token (p2 =? 2) l) as N. rewrite Ht in N. rewrite err_not_accepted in H by exact N. discriminate. }
  unfold finished in H. destruct l'; [|discriminate H].
  destruct (negb (ergo_path_validate p V_ADDRESS_GE5)) eqn:V; [discriminate H|].
  destruct (generate_public_key E p) as [[pk ch]|] eqn:G; [|discriminate H].
  destruct (ergo_address_from_pubkey (e_blake E) net pk) as [a|] eqn:A; [|discriminate H].
  split; [apply address_gen in A; apply A|]. intro net'. rewrite K. unfold handler_da. rewrite B. unfold parse_da. rewrite read_u8_cons. cbn [rd bind].
  rewrite Hn. cbn [bind]. rewrite Hp. cbn [bind]. rewrite Ht. cbn [bind finished]. rewrite V, G.
  destruct (ergo_address_from_pubkey (e_blake E) net' pk) as [a'|] eqn:A'.
  - destruct (gen_key_ok _ _ _ _ Henv G) as [G1 G2]. destruct (address_ok _ _ _ _ Henv G1 G2 A') as [A1 A2].
    split; [intros _; apply address_gen in A'; apply A'|]. intros _. destruct (_ && _); [reflexivity|].
    destruct (da_screens (negb (p1 =? 2)) t p a) as [f|s] eqn:D.
    2: { pose proof (nok_da_screens (negb (p1 =? 2)) t p a) as N. rewrite D in N. rewrite err_not_accepted in H by exact N. discriminate. }
    destruct (da_total _ _ _ _ a' _ A1 A2 D) as (f' & D'). rewrite D'. 
    destruct (da_form _ _ _ _ _ D') as (body & -> & Lb & _). 
    destruct (fits body) as (g & G3 & -> & ->); [lia|]. reflexivity.
  - split; [discriminate|]. apply address_from in A'. lia.
Qed.

(** ** Data lengths *)

Lemma path_at_length : forall off l, blen (path_at off l) = num off 1 l.
Proof. intros off l. unfold path_at, blen. rewrite map_length, seq_length. lia. Qed.
Lemma rd_len : forall n l (x : N * bytes), rd (read_be n l) = Ok x -> (length (snd x) + n = length l)%nat.
Proof. intros n l [a r] H. unfold rd in H. destruct (read_be n l) as [[a' r']|] eqn:E; [|discriminate]. injection H as -> ->. eapply read_be_len; eassumption. Qed.
Lemma tx_start_len : forall data x, parse_tx_start data = Ok x -> length data = 7%nat.
Proof.
  intros data x H. unfold parse_tx_start in H. apply bind_ok in H as ([a l1] & H1 & H). apply bind_ok in H as ([b l2] & H2 & H).
  apply bind_ok in H as ([c l3] & H3 & H). apply bind_ok in H as ([d l4] & H4 & H). unfold finished in H. destruct l4; [|discriminate].
  apply rd_len in H1, H2, H3, H4. cbn [snd length] in *. lia.
Qed.
Lemma output_init_len : forall data x, parse_output_init data = Ok x -> length data = 21%nat.
Proof.
  intros data x H. unfold parse_output_init in H. apply bind_ok in H as ([a l1] & H1 & H). apply bind_ok in H as ([b l2] & H2 & H).
  apply bind_ok in H as ([c l3] & H3 & H). apply bind_ok in H as ([d l4] & H4 & H). apply bind_ok in H as ([e l5] & H5 & H).
  unfold finished in H. destruct l5; [|discriminate].
  apply rd_len in H1, H2, H3, H4, H5. cbn [snd length] in *. lia.
Qed.
Lemma exec_length : forall E key op sub data op' a n p2, sign_exec E key op sub data = Some (Ok op', a) ->
  fixed_length INS_SIGN sub p2 data = Some n -> sub <> 1 -> blen data = n.
Proof.
  intros E key op sub data op' a n p2 H F S1. unfold fixed_length in F.
  change (INS_SIGN =? INS_KEY) with false in F. change (INS_SIGN =? INS_ADDRESS) with false in F. change (INS_SIGN =? INS_ATTEST) with false in F.
  change (INS_SIGN =? INS_SIGN) with true in F. cbv iota zeta in F. apply N.eqb_neq in S1. rewrite S1 in F. unfold blen.
  destruct (N.eqb_spec sub 0x10) as [->|]; [|destruct (N.eqb_spec sub 0x15) as [->|]; [|destruct (N.eqb_spec sub 0x17) as [->|]; [|discriminate]]];
    injection F as <-; cbn in H; injection H as H _; apply bind_ok in H as (x & H & _).
  - apply tx_start_len in H. lia.
  - apply output_init_len in H. lia.
  - unfold finished in H. destruct data; [reflexivity|discriminate].
Qed.
Lemma length_key : forall p2 data n p1, fixed_length INS_KEY p1 p2 data = Some n -> n = 1 + 4 * num 0 1 data + if p1 =? 2 then 4 else 0.
Proof. intros p2 data n p1 H. injection H as <-. reflexivity. Qed.
Lemma length_address : forall p1 p2 data n, fixed_length INS_ADDRESS p1 p2 data = Some n -> n = 2 + 4 * num 1 1 data + if p2 =? 2 then 4 else 0.
Proof. intros p1 p2 data n H. injection H as <-. reflexivity. Qed.
Lemma length_sign : forall p2 data n, fixed_length INS_SIGN 1 p2 data = Some n -> n = 2 + 4 * num 1 1 data + if p2 =? 2 then 4 else 0.
Proof. intros p2 data n H. injection H as <-. reflexivity. Qed.
Lemma length_attest : forall p2 data n, fixed_length INS_ATTEST 1 p2 data = Some n -> n = 55 + if p2 =? 2 then 4 else 0.
Proof. intros p2 data n H. injection H as <-. reflexivity. Qed.
Lemma fixed_lengths : forall E key tr st ins p1 p2 data r outs n, env_ok E ->
  history E key (tr ++ [(Apdu CLA ins p1 p2 data r, outs)]) st -> accepted outs = true ->
  fixed_length ins p1 p2 data = Some n -> blen data = n.
Proof.
  intros E key tr st' ins p1 p2 data r outs n Henv H Ha F.
  apply history_last in H as (st & Hh & Sh & Hev & Hstep & M & _).
  remember (Apdu CLA ins p1 p2 data r) as e eqn:Ee.
  destruct M; try discriminate Ha; try discriminate Ee; try (other; fail).
  { exfalso. unfold refused in H. subst e. destruct s; try discriminate Ha.
    destruct H as [H|[H|[H|[H|H]]]]; decompose [and] H; discriminate. }
  { exfalso. destruct H2 as [H2|[-> _]]; [|discriminate]. destruct s; discriminate. }
  all: injection Ee; intros; subst.
  1, 2: apply length_key in F; apply parse_epk_spec in H1 as (-> & _ & L & _); rewrite <- path_at_length in F; change (path_at 0 data) with (key_path data) in F;
    unfold blen in *; destruct (p1 =? 2); lia.
  1: apply length_address in F; apply parse_da_spec in H1 as (_ & -> & _ & L & _); rewrite <- path_at_length in F; change (path_at 1 data) with (address_path data) in F;
    unfold blen in *; destruct (p2 =? 2); lia.
  1: apply length_address in F; apply parse_da_spec in H2 as (_ & -> & _ & L & _); rewrite <- path_at_length in F; change (path_at 1 data) with (address_path data) in F;
    unfold blen in *; destruct (p2 =? 2); lia.
  1, 2: apply length_attest in F; apply parse_attest_spec in H1 as (_ & _ & _ & _ & _ & _ & _ & _ & _ & _ & _ & _ & L & _); [|apply Hev];
    unfold blen; rewrite L, F; destruct (p2 =? 2); reflexivity.
  1, 2: exfalso; change (fixed_length INS_ATTEST p1 (at_session c) data) with
      (if p1 =? 1 then Some (55 + if at_session c =? 2 then 4 else 0) else if p1 =? 5 then Some 1 else None) in F;
    destruct (N.eqb_spec p1 1) as [->|]; [discriminate H3|]; destruct (N.eqb_spec p1 5) as [->|]; discriminate.
  1: injection F as <-; reflexivity.
  1: { apply length_sign in F. pose proof H1 as H1'. apply parse_sign_token in H1 as (_ & L & _). apply parse_sign_spec in H1' as (_ & -> & _).
       rewrite <- path_at_length in F. change (path_at 1 data) with (start_path data) in F. unfold blen in *; destruct (p2 =? 2); lia. }
  1, 2: eapply exec_length; eassumption.
Qed.

(** ** Commands that ignore what follows *)

Lemma rd_ext : forall n l a r x, rd (read_be n l) = Ok (a, r) -> rd (read_be n (l ++ x)) = Ok (a, r ++ x).
Proof.
  intros n l a r x H. unfold rd in *. destruct (read_be n l) as [[a' r']|] eqn:E; [|discriminate]. injection H as -> ->.
  rewrite (read_be_app _ _ _ _ x E). reflexivity.
Qed.
Lemma firstn_ext : forall A n (l x : list A), (n <= length l)%nat -> firstn n (l ++ x) = firstn n l.
Proof. intros A n l x H. rewrite firstn_app. replace (n - length l)%nat with 0%nat by lia. rewrite firstn_O. apply app_nil_r. Qed.
Lemma skipn_ext : forall A n (l x : list A), (n <= length l)%nat -> skipn n (l ++ x) = skipn n l ++ x.
Proof. intros A n l x H. rewrite skipn_app. replace (n - length l)%nat with 0%nat by lia. reflexivity. Qed.
Lemma data_length_ext : forall l x, input_frame_data_length l <> 0 ->
  input_frame_data_length (l ++ x) = input_frame_data_length l /\ input_frame_data_length l + 16 <= blen l.
Proof.
  intros l x H. unfold input_frame_data_length in *. destruct (blen l <? FRAME_MIN_SIZE) eqn:K; [congruence|]. apply N.ltb_ge in K.
  cbv zeta in *. change (N.of_nat FRAME_SIGNATURE_LEN) with 16 in *.
  destruct (blen l <? _) eqn:K2; [congruence|]. apply N.ltb_ge in K2.
  rewrite app_nth1 by (unfold blen, FRAME_MIN_SIZE, FRAME_TOKEN_COUNT_POSITION in *; lia).
  rewrite blen_app. replace (blen l + blen x <? FRAME_MIN_SIZE) with false by (symmetry; apply N.ltb_ge; lia).
  set (m := u8 _) in *. replace (blen l + blen x <? m + 16) with false by (symmetry; apply N.ltb_ge; lia). auto.
Qed.
Lemma frame_ext : forall E key data x f, parse_input_frame E key data = Ok f -> parse_input_frame E key (data ++ x) = Ok f.
Proof.
  intros E key data x f H. unfold parse_input_frame in *. cbv zeta in *.
  destruct (input_frame_data_length data =? 0) eqn:K; [discriminate|]. apply N.eqb_neq in K.
  destruct (data_length_ext data x K) as [K1 K2]. rewrite K1. apply N.eqb_neq in K. rewrite K.
  assert (L : (N.to_nat (input_frame_data_length data) + 16 <= length data)%nat) by (unfold blen in K2; lia).
  rewrite firstn_ext by lia. rewrite skipn_ext by lia. rewrite (firstn_ext _ FRAME_SIGNATURE_LEN) by (rewrite skipn_length; unfold FRAME_SIGNATURE_LEN; lia).
  destruct (negb _); [discriminate|].
  apply bind_ok in H as ([id l1] & H1 & H). unfold rd in H1. destruct (read_bytes ERGO_ID_LEN data) as [[a b]|] eqn:E1; [|discriminate]. injection H1 as -> ->.
  rewrite (read_bytes_app _ _ _ _ x E1). cbn [rd bind].
  apply bind_ok in H as ([fc l2] & H2 & H). apply (rd_ext _ _ _ _ x) in H2. unfold read_u8 at 1. rewrite H2. cbn [bind].
  apply bind_ok in H as ([fi l3] & H3 & H). apply (rd_ext _ _ _ _ x) in H3. unfold read_u8 at 1. rewrite H3. cbn [bind].
  apply bind_ok in H as ([v l4] & H4 & H). apply (rd_ext _ _ _ _ x) in H4. unfold read_u64 at 1. rewrite H4. cbn [bind].
  apply bind_ok in H as ([tc l5] & H5 & H). apply (rd_ext _ _ _ _ x) in H5. unfold read_u8 at 1. rewrite H5. cbn [bind].
  set (tl := u8 _) in *. destruct (blen l5 <? tl + N.of_nat FRAME_SIGNATURE_LEN) eqn:K5; [discriminate|]. apply N.ltb_ge in K5.
  rewrite blen_app. replace (blen l5 + blen x <? _) with false by (symmetry; apply N.ltb_ge; lia).
  unfold FRAME_SIGNATURE_LEN in *. unfold blen in K5.
  rewrite firstn_ext by lia. rewrite skipn_ext by lia. destruct (fi =? 0); [|exact H].
  apply bind_ok in H as ([ext l6] & H6 & H). apply (rd_ext _ _ _ _ x) in H6. unfold read_u32. rewrite H6. cbn [bind]. exact H.
Qed.
Lemma u32s_ext : forall n l p r x, read_u32s n l = Some (p, r) -> read_u32s n (l ++ x) = Some (p, r ++ x).
Proof.
  induction n as [|n IH]; intros l p r x H; cbn [read_u32s] in *; [injection H as <- <-; reflexivity|].
  unfold read_u32 in *. destruct (read_be 4 l) as [[a l']|] eqn:E; [|discriminate]. rewrite (read_be_app _ _ _ _ x E).
  destruct (read_u32s n l') as [[q r']|] eqn:E2; [|discriminate]. rewrite (IH _ _ _ x E2). injection H as <- <-. reflexivity.
Qed.
Lemma path_ext : forall l p r x, stx_read_bip32_path l = Ok (p, r) -> stx_read_bip32_path (l ++ x) = Ok (p, r ++ x).
Proof.
  intros l p r x H. unfold stx_read_bip32_path in *. destruct l as [|n l]; [discriminate|]. cbn [List.app]. rewrite read_u8_cons in *.
  unfold read_bip32_path in *. destruct (_ || _); [discriminate|]. destruct (read_u32s (N.to_nat n) l) as [[q r']|] eqn:E; [|discriminate].
  rewrite (u32s_ext _ _ _ _ x E). injection H as -> ->. reflexivity.
Qed.
Lemma exec_ext : forall E key op sub data x op' a, In sub [0x12; 0x18; 0x20] -> sign_exec E key op sub data = Some (Ok op', a) ->
  sign_exec E key op sub (data ++ x) = Some (Ok op', a).
Proof.
  intros E key op sub data x op' a Hs H. destruct Hs as [<-|[<-|[<-|[]]]]; cbn [sign_exec] in *; [| |exact H].
  - injection H as H Ha. subst a. apply bind_ok in H as (f & Hf & H). rewrite (frame_ext _ _ _ x _ Hf). cbn [bind]. rewrite H. reflexivity.
  - injection H as H Ha. subst a. apply bind_ok in H as ([p l] & Hf & H). rewrite (path_ext _ _ _ x Hf). cbn [bind]. rewrite H. reflexivity.
Qed.
Lemma ignored : forall E st p1 p2 data x r, In p1 [0x12; 0x18; 0x20] ->
  accepted (snd (step E st (Apdu CLA INS_SIGN p1 p2 data r))) = true ->
  step E st (Apdu CLA INS_SIGN p1 p2 (data ++ x) r) = step E st (Apdu CLA INS_SIGN p1 p2 data r).
Proof.
  intros E st p1 p2 data x r Hs H. pose proof (sign_params _ _ _ _ _ _ H) as [P1 P2]. rewrite !sign_step in * by assumption.
  unfold handler_sign in *. destruct (st_busy st); [reflexivity|].
  assert (N1 : p1 =? 1 = false) by (destruct Hs as [<-|[<-|[<-|[]]]]; reflexivity). rewrite N1 in *.
  destruct (is_sign_subcommand p1); [|reflexivity]. destruct (st_cmd st); try reflexivity. destruct (st_ctx st) as [| | | |g]; try reflexivity.
  destruct (p2 =? sg_session g); [|reflexivity]. unfold sign_command in *. destruct (sg_state g); [reflexivity|].
  destruct (sign_exec E (st_key st) (sg_op g) p1 data) as [[[op|s] a]|] eqn:Ex; [|exfalso|exfalso].
  - rewrite (exec_ext _ _ _ _ _ x _ _ Hs Ex). reflexivity.
  - rewrite err_not_accepted in H; [discriminate|]. eapply nok_ne; [|reflexivity]. exact (nok_exec _ _ _ _ _ _ _ Ex).
  - discriminate H.
Qed.

(** ** As stated *)

Lemma only_answer : forall E key tr st e outs b, env_ok E -> history E key (tr ++ [(e, outs)]) st -> In (OResp b SW_OK) outs -> outs = [OResp b SW_OK].
Proof.
  intros E key tr st e outs b Henv H Hin. destruct (answers _ _ _ _ _ _ Henv H) as [L _].
  destruct outs as [|o [|]]; [destruct Hin| |cbn in L; lia]. destruct Hin as [->|[]]. reflexivity.
Qed.
Lemma key_consent : forall E key tr st e outs b, env_ok E -> history E key (tr ++ [(e, outs)]) st -> In (OResp b SW_OK) outs -> length b = 65%nat ->
  (exists p1 data r f, e = UiApprove /\ on_screen tr = Some (Apdu CLA INS_KEY p1 0 data r, U_EPK, f, [])) \/
  (exists data r, e = Apdu CLA INS_KEY 2 0 data r /\ known_token tr e).
Proof.
  intros E key tr st e outs b Henv H Hin L. rewrite (only_answer _ _ _ _ _ _ _ Henv H Hin) in H.
  destruct (key_answer _ _ _ _ _ _ Henv H L) as (p1 & data & r & [B|(-> & f & B)] & C & _).
  - right. symmetry in B. destruct (C B) as [-> K]. eauto.
  - left. exists p1, data, r, f. auto.
Qed.
Lemma key_exact : forall E key tr st e outs b, env_ok E -> history E key (tr ++ [(e, outs)]) st -> In (OResp b SW_OK) outs -> length b = 65%nat ->
  exists p1 data r, behind tr e U_EPK (Apdu CLA INS_KEY p1 0 data r) /\ is_account_path (key_path data) /\ exported_key E (key_path data) b.
Proof.
  intros E key tr st e outs b Henv H Hin L. rewrite (only_answer _ _ _ _ _ _ _ Henv H Hin) in H.
  destruct (key_answer _ _ _ _ _ _ Henv H L) as (p1 & data & r & B & _ & C). exists p1, data, r. auto.
Qed.
Lemma address_consent : forall E key tr st e outs b, env_ok E -> history E key (tr ++ [(e, outs)]) st -> In (OResp b SW_OK) outs -> length b = 38%nat ->
  (exists p2 data r f, e = UiApprove /\ on_screen tr = Some (Apdu CLA INS_ADDRESS 1 p2 data r, U_DA, f, [])) \/
  (exists data r, e = Apdu CLA INS_ADDRESS 1 2 data r /\ known_token tr e).
Proof.
  intros E key tr st e outs b Henv H Hin L. rewrite (only_answer _ _ _ _ _ _ _ Henv H Hin) in H.
  destruct (address_answer _ _ _ _ _ _ Henv H L) as (p2 & data & r & [B|(-> & f & B)] & C & _).
  - right. symmetry in B. destruct (C B) as [-> K]. eauto.
  - left. exists p2, data, r, f. auto.
Qed.
Lemma address_exact : forall E key tr st e outs b, env_ok E -> history E key (tr ++ [(e, outs)]) st -> In (OResp b SW_OK) outs -> length b = 38%nat ->
  exists p2 data r, behind tr e U_DA (Apdu CLA INS_ADDRESS 1 p2 data r) /\ is_address_path (address_path data) /\
    address_network data <= 252 /\ address_at E (address_network data) (address_path data) b.
Proof.
  intros E key tr st e outs b Henv H Hin L. rewrite (only_answer _ _ _ _ _ _ _ Henv H Hin) in H.
  destruct (address_answer _ _ _ _ _ _ Henv H L) as (p2 & data & r & B & _ & C). exists p2, data, r. auto.
Qed.
Lemma token_decides' : forall E key tr st ins p1 p2 data r outs, env_ok E -> history E key (tr ++ [(Apdu CLA ins p1 p2 data r, outs)]) st ->
  accepted outs = true -> ins = INS_KEY \/ (ins = INS_ADDRESS \/ ins = INS_ATTEST) /\ p1 = 1 ->
  known_token tr (Apdu CLA ins p1 p2 data r) /\ (exists b, outs = [OResp b SW_OK]) \/
  ~ known_token tr (Apdu CLA ins p1 p2 data r) /\ (exists k f, outs = [OShow k f []]).
Proof. intros E key tr st ins p1 p2 data r outs Henv H Ha Hi. eapply token_decides; try eassumption. unfold at_once. repeat eexists. exact Hi. Qed.
Lemma address_first : forall E key tr st e outs b, env_ok E -> history E key (tr ++ [(e, outs)]) st -> In (OResp b SW_OK) outs -> length b = 38%nat ->
  exists p2 data r, behind tr e U_DA (Apdu CLA INS_ADDRESS 1 p2 data r) /\ hd 0 b = num 0 1 data + 1 /\ hd 0 b <= 253.
Proof.
  intros E key tr st e outs b Henv H Hin L. destruct (address_exact _ _ _ _ _ _ _ Henv H Hin L) as (p2 & data & r & B & _ & N & pk & ch & _ & ->).
  exists p2, data, r. split; [exact B|]. unfold address. cbn [List.app hd]. unfold address_network in *. split; [reflexivity|]. lia.
Qed.
