(** What the error codes say: the requests that open an exchange. *)
From Coq Require Import String.
From Verif Require Import Lib Gve CodecProofs Env SpecVlq Bip32 ErgoTree Address Schnorr TxTable TxBox InputFrame UiFlow P2pkOp App SpecText SpecTree SpecTrace SpecTx SpecApdu
  SpecScreen SpecRequest SpecDispatch SpecSign SpecRules SpecAccept SpecAttest SpecStart SpecStatus TextProofs Base58Proofs BoxProofs Moves SignInv SignInput SignRest TraceSign TraceAttest
  TraceScreen TraceShow TraceUb FlowProofs DispatchProofs RequestProofs SessionProofs AttestProofs AcceptInput AcceptFrame AcceptOutput AcceptProofs SignedProofs StartAccept StatusProofs.

#[local] Arguments N.eqb : simpl never.
#[local] Arguments N.ltb : simpl never.
#[local] Arguments N.leb : simpl never.
#[local] Arguments N.sub : simpl never.
#[local] Arguments blen : simpl never.
#[local] Arguments num : simpl never.
#[local] Arguments slice : simpl never.

(** ** Parsing *)

Lemma token_why : forall A b l (f : N -> A) e, bind (rd_token b l) (fun '(t, l') => finished l' (f t)) = Fail e ->
  e = SW_NOT_ENOUGH_DATA /\ (length l < if b then 4 else 0)%nat \/ e = SW_TOO_MUCH_DATA /\ ((if b then 4 else 0) < length l)%nat.
Proof.
  intros A b l f e H. unfold rd_token in H. destruct b.
  - destruct (le_lt_dec 4 (length l)) as [L|L].
    + unfold read_u32 in H. rewrite read_be_ex in H by exact L. cbn [rd bind] in H. unfold finished in H.
      pose proof (skipn_length 4 l) as K. destruct (skipn 4 l); [discriminate H|]. right. cbn [length] in K. split; [congruence|lia].
    + left. split; [|exact L]. unfold read_u32 in H. destruct (read_be 4 l) as [[v rest]|] eqn:R; [|cbn in H; congruence].
      apply read_be_spec in R as (x & -> & Lx & _). rewrite app_length in L. lia.
  - cbn [bind] in H. destruct l; [discriminate H|]. right. cbn in H. split; [congruence|cbn; lia].
Qed.
Lemma path_token_why : forall A b n l (f : path -> N -> A) e,
  bind (rd (read_bip32_path n l)) (fun '(p, l) => bind (rd_token b l) (fun '(t, l) => finished l (f p t))) = Fail e ->
  e = SW_NOT_ENOUGH_DATA /\ (n = 0 \/ 10 < n \/ (length l < 4 * N.to_nat n + if b then 4 else 0)%nat) \/
  e = SW_TOO_MUCH_DATA /\ ((4 * N.to_nat n + if b then 4 else 0) < length l)%nat.
Proof.
  intros A b n l f e H. destruct (read_bip32_path n l) as [[p rest]|] eqn:P; cbn [rd bind] in H.
  - apply path_spec in P as (_ & Lp & L1 & L2 & a & -> & La). rewrite app_length.
    destruct (token_why A b rest (f p) e H) as [[He K]|[He K]]; [left|right]; (split; [exact He|]); [right; right|]; lia.
  - left. split; [congruence|]. destruct (read_path_ok n l) as [_ K]. destruct (N.eq_dec n 0) as [Z|Z]; [left; exact Z|].
    destruct (N.lt_ge_cases 10 n) as [L|L]; [right; left; exact L|]. right. right.
    destruct (le_lt_dec (4 * N.to_nat n) (length l)) as [L3|L3]; [|lia]. destruct K as [x K]; [split; [lia|exact L3]|congruence].
Qed.

Lemma parse_epk_why : forall b p1 data e, (p1 =? 2) = b -> parse_epk b data = Fail e ->
  e = SW_NOT_ENOUGH_DATA /\ (too_short INS_KEY p1 0 data \/ ~ holdable (key_path data)) \/ e = SW_TOO_MUCH_DATA /\ too_long INS_KEY p1 0 data.
Proof.
  intros b p1 data e Hb. unfold too_short, too_long, fixed_length, has_token, holdable. change (INS_KEY =? INS_KEY) with true. cbv iota zeta. rewrite Hb.
  unfold key_path. rewrite path_len. unfold parse_epk. destruct data as [|n l].
  { rewrite num_nil. intro H. left. split; [cbn in H; congruence|right; lia]. }
  rewrite num_one, read_u8_cons. cbn [rd bind]. intro H. apply path_token_why in H. rewrite blen_cons. unfold blen.
  destruct H as [[He [K|[K|K]]]|[He K]]; [left|left|left|right]; (split; [exact He|]).
  - right. lia.
  - right. lia.
  - left. eexists. split; [reflexivity|]. destruct b; lia.
  - eexists. split; [reflexivity|]. destruct b; lia.
Qed.
Lemma parse_da_why : forall b p1 p2 data e, (p2 =? 2) = b -> parse_da b data = Fail e ->
  e = SW_NOT_ENOUGH_DATA /\ (too_short INS_ADDRESS p1 p2 data \/ ~ holdable (address_path data)) \/ e = SW_TOO_MUCH_DATA /\ too_long INS_ADDRESS p1 p2 data.
Proof.
  intros b p1 p2 data e Hb. unfold too_short, too_long, fixed_length, has_token, holdable. change (INS_ADDRESS =? INS_KEY) with false.
  change (INS_ADDRESS =? INS_ADDRESS) with true. cbv iota zeta. rewrite Hb.
  unfold address_path. rewrite path_len. unfold parse_da. destruct data as [|x [|n l]].
  { rewrite num_nil. intro H. left. split; [cbn in H; congruence|right; lia]. }
  { change (num 1 1 [x]) with 0. intro H. left. split; [cbn in H; congruence|right; lia]. }
  rewrite num_two, read_u8_cons. cbn [rd bind]. rewrite read_u8_cons. cbn [rd bind]. intro H. apply (path_token_why _ b n l (fun p t => (x, p, t))) in H.
  rewrite !blen_cons. unfold blen.
  destruct H as [[He [K|[K|K]]]|[He K]]; [left|left|left|right]; (split; [exact He|]).
  - right. lia.
  - right. lia.
  - left. eexists. split; [reflexivity|]. destruct b; lia.
  - eexists. split; [reflexivity|]. destruct b; lia.
Qed.
Lemma parse_sign_why : forall b p2 data e, (p2 =? 2) = b -> parse_sign_init b data = Fail e ->
  e = SW_NOT_ENOUGH_DATA /\ too_short INS_SIGN 1 p2 data \/ e = SW_TOO_MUCH_DATA /\ too_long INS_SIGN 1 p2 data \/
  e = SW_BUFFER_ERROR /\ ((length data < 2 + 4 * length (start_path data))%nat \/ ~ holdable (start_path data)).
Proof.
  intros b p2 data e Hb. unfold too_short, too_long, fixed_length, has_token, holdable. change (INS_SIGN =? INS_KEY) with false.
  change (INS_SIGN =? INS_ADDRESS) with false. change (INS_SIGN =? INS_ATTEST) with false. change (INS_SIGN =? INS_SIGN) with true.
  change (1 =? 1) with true. cbv iota zeta. rewrite Hb.
  unfold start_path. rewrite path_len. unfold parse_sign_init. destruct data as [|x [|n l]].
  { rewrite num_nil. intro H. left. split; [cbn in H; congruence|]. eexists. split; [reflexivity|]. change (blen (@nil N)) with 0. destruct b; lia. }
  { change (num 1 1 [x]) with 0. intro H. right. right. split; [cbn in H; congruence|right; lia]. }
  rewrite num_two, read_u8_cons. cbn [rd bind]. intro H. unfold stx_read_bip32_path in H. rewrite read_u8_cons in H.
  destruct (read_bip32_path n l) as [[p rest]|] eqn:P; cbn [bind] in H.
  - apply path_spec in P as (_ & Lp & L1 & L2 & a & -> & La). apply (token_why _ b rest (fun t => (x, p, t)) e) in H.
    rewrite !blen_cons. unfold blen. rewrite app_length.
    destruct H as [[He K]|[He K]]; [left|right; left]; (split; [exact He|]); eexists; (split; [reflexivity|]); destruct b; lia.
  - right. right. split; [congruence|]. cbn [length]. destruct (read_path_ok n l) as [_ K].
    destruct (N.eq_dec n 0) as [Z|Z]; [right; lia|]. destruct (N.lt_ge_cases 10 n) as [L|L]; [right; lia|]. left.
    destruct (le_lt_dec (4 * N.to_nat n) (length l)) as [L3|L3]; [|lia]. destruct K as [y K]; [split; [lia|exact L3]|congruence].
Qed.
Lemma parse_attest_why : forall b p2 data e, (p2 =? 2) = b -> parse_attest_init b data = Fail e ->
  e = SW_NOT_ENOUGH_DATA /\ too_short INS_ATTEST 1 p2 data \/ e = SW_TOO_MUCH_DATA /\ too_long INS_ATTEST 1 p2 data.
Proof.
  intros b p2 data e Hb. unfold too_short, too_long, fixed_length, has_token. change (INS_ATTEST =? INS_KEY) with false.
  change (INS_ATTEST =? INS_ADDRESS) with false. change (INS_ATTEST =? INS_ATTEST) with true.
  change (1 =? 1) with true. cbv iota zeta. rewrite Hb. unfold blen. intro H.
  destruct (le_lt_dec 55 (length data)) as [K|K].
  - unfold parse_attest_init, read_u16, read_u64, read_u32, ERGO_ID_LEN in H.
    rewrite read_bytes_ex in H by (change (N.to_nat 32) with 32%nat; lia). cbn [rd bind] in H.
    do 4 (rewrite read_be_ex in H by (rewrite !skipn_length; lia); cbn [rd bind] in H).
    unfold read_u8 in H. rewrite read_be_ex in H by (rewrite !skipn_length; lia). cbn [rd bind] in H.
    rewrite read_be_ex in H by (rewrite !skipn_length; lia). cbn [rd bind] in H.
    match type of H with bind (rd_token b ?l) (fun '(t, l1) => finished l1 (mk_ap ?u ?v ?w ?x ?y ?z ?r t)) = _ =>
      apply (token_why _ b l (fun t => mk_ap u v w x y z r t)) in H end.
    rewrite !skipn_length in H. destruct H as [[He H]|[He H]]; [left|right]; (split; [exact He|]); eexists; (split; [reflexivity|]); destruct b; lia.
  - left. split.
    2:{ eexists. split; [reflexivity|]. destruct b; lia. }
    unfold parse_attest_init in H.
    destruct (read_bytes ERGO_ID_LEN data) as [[id l1]|] eqn:R1; cbn [rd bind] in H; [|congruence].
    destruct (read_u16 l1) as [[v2 l2]|] eqn:R2; cbn [rd bind] in H; [|congruence].
    destruct (read_u64 l2) as [[v3 l3]|] eqn:R3; cbn [rd bind] in H; [|congruence].
    destruct (read_u32 l3) as [[v4 l4]|] eqn:R4; cbn [rd bind] in H; [|congruence].
    destruct (read_u32 l4) as [[v5 l5]|] eqn:R5; cbn [rd bind] in H; [|congruence].
    destruct (read_u8 l5) as [[v6 l6]|] eqn:R6; cbn [rd bind] in H; [|congruence].
    destruct (read_u32 l6) as [[v7 l7]|] eqn:R7; cbn [rd bind] in H; [|congruence].
    exfalso. unfold read_u16, read_u64, read_u32, read_u8 in *. apply read_bytes_spec in R1 as [E1 L1]. unfold ERGO_ID_LEN in L1.
    apply read_be_spec in R2 as (? & E2 & L2 & _). apply read_be_spec in R3 as (? & E3 & L3 & _). apply read_be_spec in R4 as (? & E4 & L4 & _).
    apply read_be_spec in R5 as (? & E5 & L5 & _). apply read_be_spec in R6 as (? & E6 & L6 & _). apply read_be_spec in R7 as (? & E7 & L7 & _).
    subst. rewrite !app_length in K. lia.
Qed.

(** ** The requests *)

Lemma key_why : forall E key tr st p1 data r b s, env_ok E -> history E key tr st -> bytes_ok data = true -> st_busy st = false ->
  In (OResp b s) (snd (handler_epk E st data (p1 =? 2))) -> s <> SW_OK -> b = [] /\ key_error E tr p1 0 data r s.
Proof.
  intros E key tr st p1 data r b s Henv H Ok B Hin Hs. unfold handler_epk in Hin. rewrite B in Hin.
  destruct (parse_epk (p1 =? 2) data) as [[p token]|e] eqn:Hp.
  2: { destruct (resp_in _ _ _ Hin) as [-> ->]. split; [reflexivity|]. apply (parse_epk_why _ p1) in Hp; [|reflexivity]. destruct Hp as [[-> K]|[-> K]]; exact K. }
  assert (W : whole_data INS_KEY p1 0 data /\ (1 <= length (key_path data) <= 10)%nat).
  { apply (parse_epk_iff (p1 =? 2) p1 data eq_refl). rewrite Hp. apply okb_ok. }
  apply parse_epk_spec in Hp as (-> & Ht & _). pose proof (account_iff (key_path data)) as AI.
  destruct (ergo_path_validate (key_path data) V_ACCOUNT_GE3) eqn:V; cbn [negb] in Hin.
  2: { destruct (resp_in _ _ _ Hin) as [-> ->]. split; [reflexivity|]. cbv [key_error]. intro Pa. apply AI in Pa. discriminate. }
  pose proof (derivable_iff E (key_path data) Henv) as DI.
  destruct (generate_public_key E (key_path data)) as [[pk ch]|] eqn:G.
  2: { destruct (resp_in _ _ _ Hin) as [-> ->]. split; [reflexivity|]. cbv [key_error]. intro D. apply DI in D as (pk & ch & D). discriminate. }
  assert (Et : token = token_of (Apdu CLA INS_KEY p1 0 data r)) by exact Ht.
  pose proof (known_spec E key tr st (Apdu CLA INS_KEY p1 0 data r) Henv H) as KI. rewrite <- Et, known_app_sym in KI.
  change (st_connected (set_command st CMD_EPK)) with (st_connected st) in Hin.
  pose proof (path_fits_iff 60 (key_path data) (proj2 W) (path_words 0 data Ok)) as FI.
  destruct (is_known_application token (st_connected st)) eqn:Kn.
  { exfalso. destruct Hin as [Hin|[]]. congruence. }
  unfold ui_bip32_path_screen in Hin. destruct (bip32_path_format 60 (key_path data)) as [t|] eqn:Bf.
  - exfalso. destruct (epk_shown (set_ctx (set_command st CMD_EPK) (X_EPK (mk_epk token ch pk))) "Ext PubKey Export" U_EPK (SC_PATH (str "Path") t false) token) as (f & E1 & g & E2 & _).
    rewrite E1, E2 in Hin. destruct Hin as [Hin|[]]. discriminate Hin.
  - destruct (resp_in _ _ _ Hin) as [-> ->]. split; [reflexivity|]. cbv [key_error]. split.
    + intro K. apply FI in K as [x K]. discriminate.
    + intro K. apply KI in K. discriminate.
Qed.
Lemma address_why : forall E key tr st p1 p2 data r b s, env_ok E -> history E key tr st -> bytes_ok data = true -> st_busy st = false ->
  one_or_two p1 = true ->
  In (OResp b s) (snd (handler_da E st data (p1 =? 2) (p2 =? 2))) -> s <> SW_OK -> b = [] /\ address_error E tr p1 p2 data r s.
Proof.
  intros E key tr st p1 p2 data r b s Henv H Ok B P1 Hin Hs. unfold handler_da in Hin. rewrite B in Hin.
  destruct (parse_da (p2 =? 2) data) as [[[net p] token]|e] eqn:Hp.
  2: { destruct (resp_in _ _ _ Hin) as [-> ->]. split; [reflexivity|]. apply (parse_da_why _ p1 p2) in Hp; [|reflexivity]. destruct Hp as [[-> K]|[-> K]]; exact K. }
  assert (W : whole_data INS_ADDRESS p1 p2 data /\ (1 <= length (address_path data) <= 10)%nat).
  { apply (parse_da_iff (p2 =? 2) p1 p2 data eq_refl). rewrite Hp. apply okb_ok. }
  apply parse_da_spec in Hp as (-> & -> & Ht & _). pose proof (address_iff (address_path data)) as AI.
  destruct (ergo_path_validate (address_path data) V_ADDRESS_GE5) eqn:V; cbn [negb] in Hin.
  2: { destruct (resp_in _ _ _ Hin) as [-> ->]. split; [reflexivity|]. cbv [address_error]. intro Pa. apply AI in Pa. discriminate. }
  pose proof (derivable_iff E (address_path data) Henv) as DI.
  destruct (generate_public_key E (address_path data)) as [[pk ch]|] eqn:G.
  2: { destruct (resp_in _ _ _ Hin) as [-> ->]. split; [reflexivity|]. cbv [address_error]. intro D. apply DI in D as (pk & ch & D). discriminate. }
  pose proof (address_from E (address_network data) pk) as NI.
  destruct (ergo_address_from_pubkey (e_blake E) (address_network data) pk) as [a|] eqn:Ad.
  2: { cbn [snd] in Hin. destruct (resp_in _ _ _ Hin) as [-> ->]. split; [reflexivity|]. cbv [address_error]. apply NI. reflexivity. }
  destruct (gen_key_ok _ _ _ _ Henv G) as [G1 G2]. destruct (address_ok _ _ _ _ Henv G1 G2 Ad) as [A1 A2].
  assert (Et : token = token_of (Apdu CLA INS_ADDRESS p1 p2 data r)) by exact Ht.
  pose proof (known_spec E key tr st (Apdu CLA INS_ADDRESS p1 p2 data r) Henv H) as KI. rewrite <- Et, known_app_sym in KI.
  change (st_connected (set_command st CMD_DA)) with (st_connected st) in Hin.
  pose proof (path_fits_iff 60 (address_path data) (proj2 W) (path_words 1 data Ok)) as FI.
  assert (P1' : negb (p1 =? 2) = true <-> p1 = 1). { unfold one_or_two in P1. destruct (N.eqb_spec p1 1) as [->|N1]; [split; reflexivity|]. cbn [orb] in P1. rewrite P1. split; [discriminate|congruence]. }
  destruct (negb (p1 =? 2) && is_known_application token (st_connected st)) eqn:Kn.
  { exfalso. destruct Hin as [Hin|[]]. congruence. }
  assert (Q : ~ (p1 = 1 /\ known_token tr (Apdu CLA INS_ADDRESS p1 p2 data r))).
  { intros [Q1 Q2]. apply P1' in Q1. apply KI in Q2. rewrite Q1, Q2 in Kn. discriminate. }
  destruct (bip32_path_format 60 (address_path data)) as [t|] eqn:Bf.
  - exfalso. pose proof (da_shown (negb (p1 =? 2)) token (address_path data) a A1 A2) as [DS _]. destruct DS as [f D]; [eauto|].
    rewrite D in Hin. destruct (da_form _ _ _ _ _ D) as (body & -> & Lb & _). destruct (fits body) as (g & G3 & E1 & E2); [lia|].
    cbv zeta in Hin. rewrite <- E1, E2 in Hin. destruct Hin as [Hin|[]]. discriminate Hin.
  - unfold da_screens, ui_bip32_path_screen in Hin. rewrite Bf in Hin. destruct (resp_in _ _ _ Hin) as [-> ->]. split; [reflexivity|]. cbv [address_error].
    split; [|exact Q]. intro K. apply FI in K as [x K]. discriminate.
Qed.
Lemma attest_start_why : forall st p2 data r b s, bytes_ok data = true ->
  In (OResp b s) (snd (attest_init st data (p2 =? 2) r)) -> s <> SW_OK -> b = [] /\ attest_start_error p2 data s.
Proof.
  intros st p2 data r b s Ok Hin Hs. unfold attest_init in Hin.
  destruct (parse_attest_init (p2 =? 2) data) as [a|e] eqn:Hp.
  2: { destruct (resp_in _ _ _ Hin) as [-> ->]. split; [reflexivity|]. apply (parse_attest_why _ p2) in Hp; [|reflexivity].
       destruct Hp as [[-> K]|[-> K]]; cbv [attest_start_error]; [exact K|left; exact K]. }
  pose proof (parse_attest_spec _ _ _ Ok Hp) as S0. cbv zeta in S0. destruct S0 as (_ & _ & _ & E4 & _ & E6 & E7 & _).
  unfold attest_start_error. rewrite <- E4, <- E6, <- E7. unfold box_init, TOKEN_MAX_COUNT, MAX_TX_DATA_PART_LEN in Hin. unfold TOKENS_MAX, PART_MAX.
  destruct (N.ltb_spec 20 (ap_tokens_count a)) as [L1|L1]; [destruct (resp_in _ _ _ Hin) as [-> ->]; split; [reflexivity|exact L1]|].
  destruct (N.ltb_spec 32768 (ap_tree_size a)) as [L2|L2]; [destruct (resp_in _ _ _ Hin) as [-> ->]; split; [reflexivity|right; left; exact L2]|].
  destruct (N.ltb_spec 32768 (ap_regs_size a)) as [L3|L3]; [destruct (resp_in _ _ _ Hin) as [-> ->]; split; [reflexivity|right; right; exact L3]|].
  exfalso. cbn [res_pass negb] in Hin.
  destruct (session_id_new_random 0 (r_ids r)) as [sid|]; [|destruct Hin as [Hin|[]]; discriminate Hin].
  destruct (is_known_application _ _); [destruct Hin as [Hin|[]]; congruence|]. unfold attest_screens in Hin. cbv zeta in Hin.
  set (f := if ap_token a =? 0 then add (SC_INFO (str "Confirm Attest Input")) [] else
            add (ui_application_id_screen (ap_token a)) (add (SC_INFO (str "Confirm Attest Input")) [])) in *.
  assert (Hf : (length f <= 4)%nat). { unfold f. destruct (ap_token a =? 0); vm_compute; lia. }
  destruct (fits f Hf) as (g & G1 & G2 & G3). rewrite G1, G3 in Hin. destruct Hin as [Hin|[]]. discriminate Hin.
Qed.
Lemma sign_start_why : forall E st p2 data r b s, bytes_ok data = true ->
  In (OResp b s) (snd (sign_init E st data (p2 =? 2) r)) -> s <> SW_OK -> b = [] /\ sign_start_error E p2 data r s.
Proof.
  intros E st p2 data r b s Ok Hin Hs. unfold sign_init in Hin.
  destruct (parse_sign_init (p2 =? 2) data) as [[[net p] token]|e] eqn:Hp.
  2: { destruct (resp_in _ _ _ Hin) as [-> ->]. split; [reflexivity|]. apply (parse_sign_why _ p2) in Hp; [|reflexivity].
       destruct Hp as [[-> K]|[[-> K]|[-> K]]]; exact K. }
  assert (W : whole_data INS_SIGN 1 p2 data /\ (1 <= length (start_path data) <= 10)%nat).
  { apply (parse_sign_iff (p2 =? 2) p2 data eq_refl). rewrite Hp. apply okb_ok. }
  apply parse_sign_spec in Hp as (-> & -> & _). pose proof (supported_iff (start_network data)) as SI. pose proof (address_iff (start_path data)) as AI.
  unfold p2pk_init in Hin. destruct (ergo_path_validate (start_path data) V_ADDRESS_GE5) eqn:V; cbn [negb] in Hin.
  2: { destruct (resp_in _ _ _ Hin) as [-> ->]. split; [reflexivity|]. cbv [sign_start_error]. intro K. apply AI in K. discriminate. }
  destruct (network_id_is_supported (start_network data)) eqn:Nw; cbn [negb] in Hin.
  2: { destruct (resp_in _ _ _ Hin) as [-> ->]. split; [reflexivity|]. cbv [sign_start_error].
       split; intro K; (assert (X : false = true) by (apply SI; auto)); discriminate X. }
  destruct (e_derive E (start_path data)) as [[secret chain]|] eqn:D.
  2: { destruct (resp_in _ _ _ Hin) as [-> ->]. split; [reflexivity|]. cbv [sign_start_error]. left. intros (x & c & K & _). congruence. }
  pose proof (loop_iff E secret MAX_ITERATIONS (r_nonces r)) as LI. fold (schnorr_sign_init E secret (r_nonces r)) in LI. change MAX_ITERATIONS with 100%nat in LI.
  destruct (schnorr_sign_init E secret (r_nonces r)) as [[hash key']|].
  2: { destruct (resp_in _ _ _ Hin) as [-> ->]. split; [reflexivity|]. cbv [sign_start_error]. destruct LI as [_ LI]. fold (nonce_drawn E r) in LI.
       assert (Dec : usable E secret \/ ~ usable E secret).
       { unfold usable. destruct (N.lt_ge_cases 0 (be_value secret)) as [X1|X1]; [|right; lia].
         destruct (N.le_gt_cases (be_value secret) GROUP_ORDER) as [X2|X2]; [|right; lia].
         destruct (e_mulG E secret) as [w|]; [left; eauto|right; intros [_ [w K]]; discriminate K]. }
       destruct Dec as [Us|Us].
       - right. intro Nd. destruct (LI (conj Us Nd)) as [x X]. discriminate X.
       - left. intros (x & c & K & U). assert (x = secret) by congruence. subst x. contradiction. }
  destruct (session_id_new_random 0 (r_ids r)) as [sid|]; [|destruct Hin as [Hin|[]]; discriminate Hin].
  pose proof (path_fits_iff 60 (start_path data) (proj2 W) (path_words 1 data Ok)) as FI.
  match type of Hin with context [p2pk_show_token_and_path ?c ?t ?k] => pose proof (show_total c t k : (exists x, bip32_path_format 60 (start_path data) = Some x) <-> _) as ST;
    destruct (p2pk_show_token_and_path c t k) as [[f op]|e] eqn:Sh end.
  - exfalso. destruct Hin as [Hin|[]]. discriminate Hin.
  - destruct (resp_in _ _ _ Hin) as [-> ->]. split; [reflexivity|].
    assert (Nf : ~ path_fits 60 (start_path data)). { intro K. apply FI in K. apply ST in K. eapply okb_fail, K. }
    destruct (bip32_path_format 60 (start_path data)) as [t|] eqn:Bf; [exfalso; apply Nf, FI; eauto|].
    unfold p2pk_show_token_and_path, ui_bip32_path_screen in Sh. cbn [op_path] in Sh. rewrite Bf in Sh.
    assert (e = SW_BIP32_FORMATTING_FAILED) by congruence. subst e. exact Nf.
Qed.
