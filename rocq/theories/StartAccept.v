(** Exactly when a request that opens an exchange is accepted. *)
From Coq Require Import String.
From Verif Require Import Lib Gve CodecProofs Env SpecVlq Bip32 ErgoTree Address Schnorr TxTable TxBox InputFrame UiFlow P2pkOp App SpecText SpecTree SpecTrace SpecTx SpecApdu
  SpecScreen SpecRequest SpecDispatch SpecSign SpecRules SpecAccept SpecAttest SpecStart TextProofs Base58Proofs BoxProofs Moves SignInv SignInput SignRest TraceSign TraceAttest
  TraceScreen TraceShow TraceUb FlowProofs DispatchProofs RequestProofs SessionProofs AttestProofs AcceptInput AcceptFrame AcceptOutput AcceptProofs SignedProofs.

#[local] Arguments N.eqb : simpl never.
#[local] Arguments N.ltb : simpl never.
#[local] Arguments N.leb : simpl never.
#[local] Arguments N.sub : simpl never.
#[local] Arguments blen : simpl never.
#[local] Arguments num : simpl never.
#[local] Arguments slice : simpl never.

(** ** Paths on a screen *)

Lemma component_det : forall x c c', component_text x c -> component_text x c' -> c = c'.
Proof. intros x c c' (d & D & ->) (d' & D' & ->). rewrite (is_decimal_fun _ _ _ D D'). reflexivity. Qed.
Lemma path_text_det : forall p t, is_path_text p t -> forall t', is_path_text p t' -> t = t'.
Proof.
  induction 1 as [x c C|x p c t C P IH]; intros t' H'.
  - inversion H' as [y c' C' | y q c' u C' P']; subst; [eapply component_det; eassumption|inversion P'].
  - inversion H' as [y c' C' | y q c' u C' P']; subst; [inversion P|].
    rewrite (component_det _ _ _ C C'), (IH _ P'). reflexivity.
Qed.
Lemma last_piece : forall p, p <> [] -> exists pre, concat (pieces p) = pre ++ last (pieces p) [].
Proof.
  intros p Hp. exists (concat (removelast (pieces p))). rewrite (app_removelast_last [] (pieces_ne p Hp)) at 1.
  rewrite concat_app. cbn [concat]. rewrite app_nil_r. reflexivity.
Qed.
Lemma path_fits_iff : forall cap p, (1 <= length p <= 10)%nat -> Forall (fun x => x < 2 ^ 32) p ->
  ((exists t, bip32_path_format cap p = Some t) <-> path_fits cap p).
Proof.
  intros cap p L F. assert (Hp : p <> []) by (destruct p; [cbn in L; lia|discriminate]).
  pose proof (pieces_text p Hp F) as T. rewrite (path_format_spec cap p _ L F eq_refl).
  pose proof (pieces_last p Hp F) as El. destruct (last_piece p Hp) as (pre & Ec).
  assert (Nl : (1 <= length (last (pieces p) []))%nat).
  { pose proof (pieces_nonnil p) as Hn. rewrite (app_removelast_last [] (pieces_ne p Hp)) in Hn. apply Forall_app in Hn as [_ Hn]. inversion Hn as [|? ? Hn1 _].
    destruct (last (pieces p) []); [congruence|cbn; lia]. }
  assert (Lc : length (concat (pieces p)) = (length pre + length (last (pieces p) []))%nat) by (rewrite Ec at 1; apply app_length).
  assert (Lp : (length (concat (pieces p)) - length (last (pieces p) []) = length pre)%nat) by lia.
  rewrite Lp. clear Lp. split.
  - intros [t H]. destruct (Nat.ltb_spec (length pre) (cap - 1)) as [K|K]; [|discriminate]. exists (concat (pieces p)). split; [exact T|].
    destruct (N.leb_spec (2 ^ 31) (last p 0)) as [Hh|Hh].
    + left. rewrite El in Lc. cbn [length] in Lc. lia.
    + right. split; [exact Hh|]. exists pre, (dec (last p 0)). split; [rewrite <- El; exact Ec|]. split; [|lia].
      exists (dec (last p 0)). split.
      * rewrite N.mod_small by exact Hh. apply dec_spec. change (2 ^ 31) with 2147483648 in Hh. change (10 ^ 20) with 100000000000000000000. lia.
      * replace (2 ^ 31 <=? last p 0) with false by (symmetry; apply N.leb_gt; exact Hh). rewrite app_nil_r. reflexivity.
  - intros (full & Tf & H). rewrite (path_text_det _ _ Tf _ T) in H. clear full Tf.
    assert (K : (length pre < cap - 1)%nat).
    { destruct H as [H|(Hh & pre' & c & E & C & H)]; [lia|].
      assert (c = last (pieces p) []).
      { rewrite El. replace (2 ^ 31 <=? last p 0) with false by (symmetry; apply N.leb_gt; exact Hh).
        destruct C as (d & D & ->). replace (2 ^ 31 <=? last p 0) with false by (symmetry; apply N.leb_gt; exact Hh). rewrite app_nil_r.
        rewrite N.mod_small in D by exact Hh. eapply is_decimal_fun; [exact D|]. apply dec_spec.
        change (2 ^ 31) with 2147483648 in Hh. change (10 ^ 20) with 100000000000000000000. lia. }
      subst c. assert (length (concat (pieces p)) = (length pre' + length (last (pieces p) []))%nat) by (rewrite E at 1; apply app_length). lia. }
    apply Nat.ltb_lt in K. rewrite K. eexists. reflexivity.
Qed.

(** ** Parsing *)

Lemma read_path_ok : forall n l, (exists x, read_bip32_path n l = Some x) <-> 1 <= n <= 10 /\ (4 * N.to_nat n <= length l)%nat.
Proof.
  intros n l. unfold read_bip32_path, MAX_BIP32_PATH. destruct (N.eqb_spec n 0) as [->|Hn]; cbn [orb].
  { split; [intros [x H]; discriminate|lia]. }
  destruct (N.ltb_spec 10 n) as [L|L]; [split; [intros [x H]; discriminate|lia]|]. split.
  - intros [[q r] H]. apply read_u32s_spec in H as (_ & L2 & _). lia.
  - intros [_ K]. destruct (read_u32s_ex (N.to_nat n) l K) as [x ->]. eexists. reflexivity.
Qed.
Lemma token_ok : forall A b l (f : N -> A), okb (bind (rd_token b l) (fun '(t, l') => finished l' (f t))) <-> length l = (if b then 4 else 0)%nat.
Proof.
  intros A b l f. split.
  - intros [x H]. apply bind_token in H as (t & _ & H). apply (token_spec b []) in H. apply H.
  - intro L. unfold rd_token. destruct b.
    + unfold read_u32. rewrite read_be_ex by lia. cbn [rd bind]. rewrite skipn_all2 by lia. apply okb_ok.
    + destruct l; [|discriminate L]. apply okb_ok.
Qed.
Lemma path_token_ok : forall A b n l (f : path -> N -> A),
  okb (bind (rd (read_bip32_path n l)) (fun '(p, l) => bind (rd_token b l) (fun '(t, l) => finished l (f p t)))) <->
  1 <= n <= 10 /\ length l = (4 * N.to_nat n + if b then 4 else 0)%nat.
Proof.
  intros A b n l f. rewrite okb_bind. split.
  - intros ([p rest] & H & T). unfold rd in H. destruct (read_bip32_path n l) as [[x y]|] eqn:P; [|discriminate].
    assert (x = p /\ y = rest) as [-> ->] by (split; congruence). apply (token_ok A b rest (f p)) in T.
    apply path_spec in P as (_ & Lp & L1 & L2 & a & -> & La). split; [lia|]. rewrite app_length. lia.
  - intros [N L]. destruct (read_path_ok n l) as [_ K]. destruct K as [[p rest] P]; [split; [exact N|]; destruct b; lia|].
    exists (p, rest). rewrite P. split; [reflexivity|]. apply (token_ok A b rest (f p)).
    apply path_spec in P as (_ & Lp & L1 & L2 & a & -> & La). rewrite app_length in L. lia.
Qed.
Lemma num_one : forall x l, num 0 1 (x :: l) = x.
Proof. intros x l. change (x :: l) with ([x] ++ l). rewrite num_head by reflexivity. unfold be_value. cbn. lia. Qed.
Lemma num_two : forall x y l, num 1 1 (x :: y :: l) = y.
Proof. intros x y l. change (x :: y :: l) with ([x] ++ y :: l). rewrite num_skip by (cbn; lia). apply num_one. Qed.
Lemma num_nil : forall off n, num off n [] = 0.
Proof. intros off n. unfold num, slice. rewrite skipn_nil, firstn_nil. reflexivity. Qed.
Lemma path_len : forall off l, length (path_at off l) = N.to_nat (num off 1 l).
Proof. intros. unfold path_at. rewrite map_length, seq_length. reflexivity. Qed.
Lemma path_words : forall off l, bytes_ok l = true -> Forall (fun x => x < 2 ^ 32) (path_at off l).
Proof.
  intros off l H. unfold path_at. apply Forall_forall. intros x K. apply in_map_iff in K as (i & <- & _).
  apply (num_bound (off + 1 + 4 * i) 4 l H).
Qed.

Lemma parse_epk_iff : forall b p1 data, (p1 =? 2) = b ->
  (okb (parse_epk b data) <-> whole_data INS_KEY p1 0 data /\ (1 <= length (key_path data) <= 10)%nat).
Proof.
  intros b p1 data Hb. unfold whole_data, fixed_length, has_token. change (INS_KEY =? INS_KEY) with true. cbv iota zeta. rewrite Hb.
  unfold key_path. rewrite path_len. unfold parse_epk. destruct data as [|n l].
  { rewrite num_nil. split; [intros [x H]; discriminate|]. lia. }
  rewrite num_one, read_u8_cons. cbn [rd bind]. rewrite (path_token_ok _ b n l (fun p t => (p, t))).
  rewrite blen_cons. unfold blen. split.
  - intros [H1 H2]. split; [f_equal|]; destruct b; lia.
  - intros [H1 H2]. assert (1 + 4 * n + (if b then 4 else 0) = N.of_nat (length l) + 1) by congruence. split; destruct b; lia.
Qed.
Lemma parse_da_iff : forall b p1 p2 data, (p2 =? 2) = b ->
  (okb (parse_da b data) <-> whole_data INS_ADDRESS p1 p2 data /\ (1 <= length (address_path data) <= 10)%nat).
Proof.
  intros b p1 p2 data Hb. unfold whole_data, fixed_length, has_token. change (INS_ADDRESS =? INS_KEY) with false.
  change (INS_ADDRESS =? INS_ADDRESS) with true. cbv iota zeta. rewrite Hb.
  unfold address_path. rewrite path_len. unfold parse_da. destruct data as [|x [|n l]].
  { rewrite num_nil. split; [intros [z H]; discriminate|]. lia. }
  { split; [intros [z H]; discriminate|]. change (num 1 1 [x]) with 0. lia. }
  rewrite num_two, read_u8_cons. cbn [rd bind]. rewrite read_u8_cons. cbn [rd bind]. rewrite (path_token_ok _ b n l (fun p t => (x, p, t))).
  rewrite !blen_cons. unfold blen. split.
  - intros [H1 H2]. split; [f_equal|]; destruct b; lia.
  - intros [H1 H2]. assert (2 + 4 * n + (if b then 4 else 0) = N.of_nat (length l) + 1 + 1) by congruence. split; destruct b; lia.
Qed.
Lemma parse_sign_iff : forall b p2 data, (p2 =? 2) = b ->
  (okb (parse_sign_init b data) <-> whole_data INS_SIGN 1 p2 data /\ (1 <= length (start_path data) <= 10)%nat).
Proof.
  intros b p2 data Hb. unfold whole_data, fixed_length, has_token. change (INS_SIGN =? INS_KEY) with false.
  change (INS_SIGN =? INS_ADDRESS) with false. change (INS_SIGN =? INS_ATTEST) with false. change (INS_SIGN =? INS_SIGN) with true.
  change (1 =? 1) with true. cbv iota zeta. rewrite Hb.
  unfold start_path. rewrite path_len. unfold parse_sign_init. destruct data as [|x [|n l]].
  { rewrite num_nil. split; [intros [z H]; discriminate|]. lia. }
  { split; [intros [z H]; discriminate|]. change (num 1 1 [x]) with 0. lia. }
  rewrite num_two, read_u8_cons. cbn [rd bind].
  assert (K : okb (bind (stx_read_bip32_path (n :: l)) (fun '(p, l) => bind (rd_token b l) (fun '(t, l) => finished l (x, p, t)))) <->
     okb (bind (rd (read_bip32_path n l)) (fun '(p, l) => bind (rd_token b l) (fun '(t, l) => finished l (x, p, t))))).
  { unfold stx_read_bip32_path. rewrite read_u8_cons. destruct (read_bip32_path n l) as [y|]; cbn [rd bind]; [reflexivity|].
    split; intros [z H]; discriminate. }
  rewrite K, (path_token_ok _ b n l (fun p t => (x, p, t))).
  rewrite !blen_cons. unfold blen. split.
  - intros [H1 H2]. split; [f_equal|]; destruct b; lia.
  - intros [H1 H2]. assert (2 + 4 * n + (if b then 4 else 0) = N.of_nat (length l) + 1 + 1) by congruence. split; destruct b; lia.
Qed.
Lemma parse_attest_iff : forall b p2 data, (p2 =? 2) = b -> bytes_ok data = true ->
  (okb (parse_attest_init b data) <-> whole_data INS_ATTEST 1 p2 data).
Proof.
  intros b p2 data Hb Ok. unfold whole_data, fixed_length, has_token. change (INS_ATTEST =? INS_KEY) with false.
  change (INS_ATTEST =? INS_ADDRESS) with false. change (INS_ATTEST =? INS_ATTEST) with true.
  change (1 =? 1) with true. cbv iota zeta. rewrite Hb. unfold blen. split.
  - intros [a H]. apply parse_attest_spec in H; [|exact Ok]. cbv zeta in H. decompose [and] H. f_equal. destruct b; lia.
  - intro H. assert (L : 55 + (if b then 4 else 0) = N.of_nat (length data)) by congruence. clear H.
    assert (L' : (length data = 55 + if b then 4 else 0)%nat) by (destruct b; lia). clear L.
    unfold parse_attest_init, read_u16, read_u64, read_u32, ERGO_ID_LEN.
    assert (K : (55 <= length data)%nat) by (destruct b; lia).
    rewrite read_bytes_ex by (change (N.to_nat 32) with 32%nat; lia). cbn [rd bind].
    do 4 (rewrite read_be_ex by (rewrite !skipn_length; lia); cbn [rd bind]).
    unfold read_u8. rewrite read_be_ex by (rewrite !skipn_length; lia). cbn [rd bind].
    rewrite read_be_ex by (rewrite !skipn_length; lia). cbn [rd bind].
    match goal with |- okb (bind (rd_token b ?l) (fun '(t, l1) => finished l1 (mk_ap ?u ?v ?w ?x ?y ?z ?r t))) =>
      apply (token_ok _ b l (fun t => mk_ap u v w x y z r t)) end.
    rewrite !skipn_length. destruct b; lia.
Qed.

(** ** Keys and random draws *)

Lemma derivable_iff : forall E p, env_ok E -> ((exists pk ch, generate_public_key E p = Some (pk, ch)) <-> derivable E p).
Proof.
  intros E p Henv. split.
  - intros (pk & ch & H). exists (compress pk), ch. apply (key_at_gen _ _ _ _ Henv H).
  - intros (pk & ch & s & w & D & G & _). exists w, ch. unfold generate_public_key. rewrite D, G. reflexivity.
Qed.
Lemma round_iff : forall E secret nonce, ((exists x, schnorr_round E secret nonce = Some x) <-> usable E secret /\ usable E nonce).
Proof.
  intros E secret nonce. unfold schnorr_round, usable. rewrite <- !scalar_range.
  destruct (scalar_rejected secret); [split; [intros [x H]; discriminate|intros [[K _] _]; discriminate]|].
  destruct (e_mulG E secret) as [w|]; [|split; [intros [x H]; discriminate|intros [[_ [x K]] _]; discriminate]].
  destruct (scalar_rejected nonce); [split; [intros [x H]; discriminate|intros [_ [K _]]; discriminate]|].
  destruct (e_mulG E nonce) as [v|]; [|split; [intros [x H]; discriminate|intros [_ [_ [x K]]]; discriminate]].
  split; [intros _; split; (split; [reflexivity|]); eexists; reflexivity|]. intros _. eexists. reflexivity.
Qed.
Lemma zero_unusable : forall E, ~ usable E (repeat 0 32).
Proof. intros E [H _]. assert (be_value (repeat 0 32) = 0) by reflexivity. lia. Qed.
Lemma loop_iff : forall E secret n nonces, ((exists x, schnorr_init_loop E secret n nonces = Some x) <->
  usable E secret /\ exists k, In k (firstn n nonces) /\ usable E k).
Proof.
  intros E secret. induction n as [|n IH]; intro nonces; cbn [schnorr_init_loop firstn].
  { split; [intros [x H]; discriminate|intros (_ & k & [] & _)]. }
  destruct (schnorr_round E secret (hd (repeat 0 32) nonces)) as [x|] eqn:R.
  - assert (K : usable E secret /\ usable E (hd (repeat 0 32) nonces)) by (apply round_iff; exists x; exact R).
    split; [|intros _; exists x; reflexivity]. intros _. split; [apply K|]. destruct nonces as [|k l]; [exfalso; exact (zero_unusable E (proj2 K))|].
    exists k. split; [left; reflexivity|apply K].
  - rewrite IH. split; intros (U & k & I & K); split; try exact U; exists k; (split; [|exact K]).
    + destruct nonces as [|y l]; [rewrite firstn_nil in I; destruct I|]. right. exact I.
    + destruct nonces as [|y l]; [destruct I|]. destruct I as [->|I]; [|exact I]. exfalso.
      assert (X : exists x, schnorr_round E secret k = Some x) by (apply round_iff; auto). destruct X as [x X]. cbn [hd] in R. congruence.
Qed.
Lemma id_iff : forall ids, ((exists i, session_id_new_random 0 ids = Some i) <-> exists i, In i ids /\ i <> 0).
Proof.
  induction ids as [|i t IH]; cbn [session_id_new_random].
  { split; [intros [x H]; discriminate|intros (x & [] & _)]. }
  destruct (N.eqb_spec i 0) as [->|N]; cbn [orb].
  - rewrite IH. split; intros (x & I & K); exists x; (split; [|exact K]); [right; exact I|]. destruct I as [I|I]; [congruence|exact I].
  - split; [|intros _; exists i; reflexivity]. intros _. exists i. split; [left; reflexivity|exact N].
Qed.

(** ** The requests *)

Lemma idle_iff : forall E key tr st, env_ok E -> history E key tr st -> (on_screen tr = None <-> st_busy st = false).
Proof.
  intros E key tr st Henv H. split; [apply (screen_idle_state E key tr st Henv H)|]. intro B.
  destruct (screen_inv_holds E key tr st Henv H) as [_ S]. rewrite B in S. exact S.
Qed.
Lemma resp_not : forall A (x : out A) st s, nok x -> x = Fail s -> accepted (snd (handler_err st s)) = true -> False.
Proof. intros A x st s N K H. rewrite err_not_accepted in H; [discriminate|]. eapply nok_ne; eassumption. Qed.
Lemma account_ge1 : forall p, is_account_path p -> (1 <= length p)%nat.
Proof. intros p (a & t & -> & _). cbn. lia. Qed.
Lemma address_ge1 : forall p, is_address_path p -> (1 <= length p)%nat.
Proof. intros p (a & c & i & t & -> & _). cbn. lia. Qed.
Lemma account_iff : forall p, ergo_path_validate p V_ACCOUNT_GE3 = true <-> is_account_path p.
Proof. intro p. apply (validate_hard p V_ACCOUNT_GE3). right. reflexivity. Qed.
Lemma address_iff : forall p, ergo_path_validate p V_ADDRESS_GE5 = true <-> is_address_path p.
Proof. intro p. apply validate_address_ge5. Qed.

Lemma key_step : forall E st p1 p2 data r, step E st (Apdu CLA INS_KEY p1 p2 data r) =
  if one_or_two p1 && (p2 =? 0) then handler_epk E st data (p1 =? 2) else (st, [OResp [] SW_WRONG_P1P2]).
Proof.
  intros E st p1 p2 data r. rewrite step_params by reflexivity. unfold params_ok.
  change (INS_KEY =? INS_VERSION) with false. change (INS_KEY =? INS_NAME) with false. change (INS_KEY =? INS_KEY) with true.
  cbn [orb]. destruct (one_or_two p1 && (p2 =? 0)); reflexivity.
Qed.
Lemma epk_shown : forall st c (k : ui_kind) s token, exists f, ui_approve_reject_screens (if token =? 0 then add s (add (SC_INFO (str c)) []) else add (ui_application_id_screen token) (add s (add (SC_INFO (str c)) []))) = Some f /\
  exists g, ui_display_screens f = Some g /\ accepted (snd (show st k g dyn_none, [OShow k g []])) = true.
Proof.
  intros st c k s token. rewrite !add_short by reflexivity. cbn [List.app].
  destruct (token =? 0).
  - destruct (fits [SC_INFO (str c); s]) as (g & -> & E1 & E2); [cbn; lia|]. exists g. split; [reflexivity|]. eexists. split; [exact E2|reflexivity].
  - destruct (fits [SC_INFO (str c); s; ui_application_id_screen token]) as (g & -> & E1 & E2); [cbn; lia|]. exists g. split; [reflexivity|]. eexists. split; [exact E2|reflexivity].
Qed.

Theorem accepts_key : forall E key tr st p1 p2 data r, env_ok E -> history E key tr st -> event_ok (Apdu CLA INS_KEY p1 p2 data r) ->
  (accepted (snd (step E st (Apdu CLA INS_KEY p1 p2 data r))) = true <-> on_screen tr = None /\ key_request_ok E tr p1 p2 data r).
Proof.
  intros E key tr st p1 p2 data r Henv H Hev. rewrite (idle_iff _ _ _ _ Henv H), key_step. unfold key_request_ok.
  assert (Ok : bytes_ok data = true) by apply Hev.
  destruct (one_or_two p1) eqn:P1; cbn [andb]; [|split; [discriminate|intros (_ & K & _); discriminate]].
  destruct (N.eqb_spec p2 0) as [->|P2]; cbn [andb]; [|split; [discriminate|tauto]].
  unfold handler_epk. destruct (st_busy st); [split; [discriminate|intros [K _]; discriminate]|].
  pose proof (parse_epk_iff (p1 =? 2) p1 data eq_refl) as PI.
  destruct (parse_epk (p1 =? 2) data) as [[p token]|s] eqn:Hp.
  2: { split; [intro A; exfalso; eapply (resp_not _ (parse_epk (p1 =? 2) data)); [apply nok_epk|exact Hp|exact A]|].
       intros (_ & _ & _ & W & Pa & Le & _). exfalso. eapply okb_fail. apply PI. split; [exact W|]. split; [apply account_ge1, Pa|exact Le]. }
  assert (W : whole_data INS_KEY p1 0 data /\ (1 <= length (key_path data) <= 10)%nat) by (apply PI, okb_ok). clear PI.
  apply parse_epk_spec in Hp as (-> & Ht & _). pose proof (account_iff (key_path data)) as AI.
  destruct (ergo_path_validate (key_path data) V_ACCOUNT_GE3) eqn:V; cbn [negb].
  2: { split; [discriminate|]. intros (_ & _ & _ & _ & Pa & _). apply AI in Pa. discriminate. }
  pose proof (derivable_iff E (key_path data) Henv) as DI.
  destruct (generate_public_key E (key_path data)) as [[pk ch]|] eqn:G.
  2: { split; [discriminate|]. intros (_ & _ & _ & _ & _ & _ & D & _). apply DI in D as (pk & ch & D). discriminate. }
  assert (Et : token = token_of (Apdu CLA INS_KEY p1 0 data r)) by exact Ht.
  pose proof (known_spec E key tr st (Apdu CLA INS_KEY p1 0 data r) Henv H) as KI. rewrite <- Et, known_app_sym in KI.
  change (st_connected (set_command st CMD_EPK)) with (st_connected st).
  pose proof (path_fits_iff 60 (key_path data) (proj2 W) (path_words 0 data Ok)) as FI.
  destruct (is_known_application token (st_connected st)) eqn:Kn.
  { split; [|reflexivity]. intros _. split; [reflexivity|]. split; [reflexivity|]. split; [reflexivity|]. split; [apply W|]. split; [apply AI; reflexivity|].
    split; [apply W|]. split; [apply DI; eauto|]. left. apply KI. reflexivity. }
  unfold ui_bip32_path_screen. destruct (bip32_path_format 60 (key_path data)) as [t|] eqn:B.
  - destruct (epk_shown (set_ctx (set_command st CMD_EPK) (X_EPK (mk_epk token ch pk))) "Ext PubKey Export" U_EPK (SC_PATH (str "Path") t false) token) as (f & -> & g & -> & A).
    split; [|intros _; exact A]. intros _. split; [reflexivity|]. split; [reflexivity|]. split; [reflexivity|]. split; [apply W|]. split; [apply AI; reflexivity|].
    split; [apply W|]. split; [apply DI; eauto|]. right. apply FI. eauto.
  - split; [discriminate|]. intros (_ & _ & _ & _ & _ & _ & _ & [K|K]).
    + apply KI in K. discriminate.
    + apply FI in K as [x K]. discriminate.
Qed.
Lemma da_shown : forall send token p addr, bytes_ok addr = true -> length addr = 38%nat ->
  ((exists t, bip32_path_format 60 p = Some t) <-> okb (da_screens send token p addr)).
Proof.
  intros send token p addr O L. unfold da_screens, ui_bip32_path_screen.
  destruct (bip32_path_format 60 p) as [t|]; [|split; [intros [x K]; discriminate|intros [x K]; discriminate]].
  split; [|intros _; eauto]. intros _. cbv zeta.
  set (f0 := add (SC_PATH (str "Path") t false) (add (SC_INFO (str (if send then "Confirm Send Address" else "Confirm Address"))) [])).
  assert (L0 : length f0 = 2%nat) by reflexivity.
  assert (G : forall f1, (length f1 <= 3)%nat -> okb (match ui_approve_reject_screens (if token =? 0 then f1 else add (ui_application_id_screen token) f1) with
                     | None => Fail SW_UB | Some f => Ok f end)).
  { intros f1 L1. destruct (token =? 0).
    - destruct (fits f1) as (g & -> & _); [lia|]. apply okb_ok.
    - rewrite add_short by (unfold blen; lia). destruct (fits (f1 ++ [ui_application_id_screen token])) as (g & -> & _); [rewrite app_length; cbn [length]; lia|]. apply okb_ok. }
  destruct send; [exact (G f0 ltac:(lia))|].
  destruct (base58_fits addr P2PK_ADDRESS_STRING_MAX_LEN O) as (x & -> & Lt); [lia|unfold P2PK_ADDRESS_STRING_MAX_LEN; lia|].
  replace (Nat.leb P2PK_ADDRESS_STRING_MAX_LEN (length x)) with false by (symmetry; apply Nat.leb_gt; unfold P2PK_ADDRESS_STRING_MAX_LEN; lia).
  cbn [bind]. apply G. rewrite add_short by reflexivity. rewrite app_length, L0. cbn [length]. lia.
Qed.
Theorem accepts_address : forall E key tr st p1 p2 data r, env_ok E -> history E key tr st -> event_ok (Apdu CLA INS_ADDRESS p1 p2 data r) ->
  (accepted (snd (step E st (Apdu CLA INS_ADDRESS p1 p2 data r))) = true <-> on_screen tr = None /\ address_request_ok E tr p1 p2 data r).
Proof.
  intros E key tr st p1 p2 data r Henv H Hev. rewrite (idle_iff _ _ _ _ Henv H), address_step. unfold address_request_ok.
  assert (Ok : bytes_ok data = true) by apply Hev.
  destruct (one_or_two p1) eqn:P1; cbn [andb]; [|split; [discriminate|intros (_ & K & _); discriminate]].
  destruct (one_or_two p2) eqn:P2; cbn [andb]; [|split; [discriminate|intros (_ & _ & K & _); discriminate]].
  unfold handler_da. destruct (st_busy st); [split; [discriminate|intros [K _]; discriminate]|].
  pose proof (parse_da_iff (p2 =? 2) p1 p2 data eq_refl) as PI.
  destruct (parse_da (p2 =? 2) data) as [[[net p] token]|s] eqn:Hp.
  2: { split; [intro A; exfalso; eapply (resp_not _ (parse_da (p2 =? 2) data)); [apply nok_da|exact Hp|exact A]|].
       intros (_ & _ & _ & W & _ & Pa & Le & _). exfalso. eapply okb_fail. apply PI. split; [exact W|]. split; [apply address_ge1, Pa|exact Le]. }
  assert (W : whole_data INS_ADDRESS p1 p2 data /\ (1 <= length (address_path data) <= 10)%nat) by (apply PI, okb_ok). clear PI.
  apply parse_da_spec in Hp as (-> & -> & Ht & _). pose proof (address_iff (address_path data)) as AI.
  destruct (ergo_path_validate (address_path data) V_ADDRESS_GE5) eqn:V; cbn [negb].
  2: { split; [discriminate|]. intros (_ & _ & _ & _ & _ & Pa & _). apply AI in Pa. discriminate. }
  pose proof (derivable_iff E (address_path data) Henv) as DI.
  destruct (generate_public_key E (address_path data)) as [[pk ch]|] eqn:G.
  2: { split; [discriminate|]. intros (_ & _ & _ & _ & _ & _ & _ & D & _). apply DI in D as (pk & ch & D). discriminate. }
  pose proof (address_from E (address_network data) pk) as NI.
  destruct (ergo_address_from_pubkey (e_blake E) (address_network data) pk) as [a|] eqn:Ad.
  2: { split; [discriminate|]. intros (_ & _ & _ & _ & L & _). assert (252 < address_network data) by (apply NI; reflexivity). lia. }
  assert (Net : address_network data <= 252). { destruct (N.le_gt_cases (address_network data) 252) as [K|K]; [exact K|]. apply NI in K. discriminate. }
  destruct (gen_key_ok _ _ _ _ Henv G) as [G1 G2]. destruct (address_ok _ _ _ _ Henv G1 G2 Ad) as [A1 A2].
  assert (Et : token = token_of (Apdu CLA INS_ADDRESS p1 p2 data r)) by exact Ht.
  pose proof (known_spec E key tr st (Apdu CLA INS_ADDRESS p1 p2 data r) Henv H) as KI. rewrite <- Et, known_app_sym in KI.
  change (st_connected (set_command st CMD_DA)) with (st_connected st).
  pose proof (path_fits_iff 60 (address_path data) (proj2 W) (path_words 1 data Ok)) as FI. rewrite <- FI, (da_shown (negb (p1 =? 2)) token (address_path data) a A1 A2).
  assert (P1' : negb (p1 =? 2) = true <-> p1 = 1). { unfold one_or_two in P1. destruct (N.eqb_spec p1 1) as [->|N1]; [split; reflexivity|]. cbn [orb] in P1. rewrite P1. split; [discriminate|congruence]. }
  assert (Dn : derivable E (address_path data)) by (apply DI; eauto).
  assert (Pa : is_address_path (address_path data)) by (apply AI; reflexivity).
  assert (Rest : forall Q : Prop, (false = false /\ true = true /\ true = true /\ whole_data INS_ADDRESS p1 p2 data /\ address_network data <= 252 /\
     is_address_path (address_path data) /\ (length (address_path data) <= 10)%nat /\ derivable E (address_path data) /\ Q) <-> Q) by (intro Q; tauto).
  rewrite Rest. clear Rest.
  destruct (negb (p1 =? 2) && is_known_application token (st_connected st)) eqn:Kn.
  { apply andb_true_iff in Kn as [K1 K2]. split; [|reflexivity]. intros _. left. split; [apply P1', K1|apply KI, K2]. }
  assert (Q : ~ (p1 = 1 /\ known_token tr (Apdu CLA INS_ADDRESS p1 p2 data r))).
  { intros [Q1 Q2]. apply P1' in Q1. apply KI in Q2. rewrite Q1, Q2 in Kn. discriminate. }
  destruct (da_screens (negb (p1 =? 2)) token (address_path data) a) as [f|s] eqn:D.
  - destruct (da_form _ _ _ _ _ D) as (body & -> & Lb & _). destruct (fits body) as (g & G3 & -> & ->); [lia|].
    split; [intros _; right; apply okb_ok|reflexivity].
  - split; [intro A; exfalso; eapply (resp_not _ (da_screens (negb (p1 =? 2)) token (address_path data) a)); [apply nok_da_screens|exact D|exact A]|].
    intros [K|K]; [contradiction|]. exfalso. eapply okb_fail, K.
Qed.
Theorem accepts_attest : forall E key tr st p2 data r, env_ok E -> history E key tr st -> event_ok (Apdu CLA INS_ATTEST 1 p2 data r) ->
  (accepted (snd (step E st (Apdu CLA INS_ATTEST 1 p2 data r))) = true <-> on_screen tr = None /\ attest_request_ok p2 data r).
Proof.
  intros E key tr st p2 data r Henv H Hev. rewrite (idle_iff _ _ _ _ Henv H), attest_step. unfold attest_request_ok, id_drawn.
  assert (Ok : bytes_ok data = true) by apply Hev. change (1 =? 0) with false. cbn [orb].
  destruct (N.eqb_spec p2 0) as [->|P2]; [split; [discriminate|intros (_ & K & _); discriminate]|].
  unfold handler_attest. destruct (st_busy st); [split; [discriminate|intros [K _]; discriminate]|]. unfold one_or_two.
  destruct ((p2 =? 1) || (p2 =? 2)) eqn:P.
  2: { apply orb_false_iff in P as [-> ->]. split; [discriminate|intros (_ & K & _); discriminate]. }
  replace (negb (p2 =? 1) && negb (p2 =? 2)) with false by (destruct (p2 =? 1); [reflexivity|cbn [orb] in P; rewrite P; reflexivity]).
  unfold attest_init. pose proof (parse_attest_iff (p2 =? 2) p2 data eq_refl Ok) as PI.
  destruct (parse_attest_init (p2 =? 2) data) as [a|s] eqn:Hp.
  2: { split; [intro A; exfalso; eapply (resp_not _ (parse_attest_init (p2 =? 2) data)); [apply nok_attest|exact Hp|exact A]|].
       intros (_ & _ & W & _). exfalso. eapply okb_fail. apply PI. exact W. }
  assert (W : whole_data INS_ATTEST 1 p2 data) by (apply PI, okb_ok). clear PI.
  pose proof (parse_attest_spec _ _ _ Ok Hp) as S. cbv zeta in S. destruct S as (_ & _ & _ & E4 & _ & E6 & E7 & _).
  rewrite <- E4, <- E6, <- E7. unfold box_init, TOKEN_MAX_COUNT, MAX_TX_DATA_PART_LEN, TOKENS_MAX, PART_MAX.
  destruct (N.ltb_spec 20 (ap_tokens_count a)) as [L1|L1]; [split; [discriminate|lia]|].
  destruct (N.ltb_spec 32768 (ap_tree_size a)) as [L2|L2]; [split; [discriminate|lia]|].
  destruct (N.ltb_spec 32768 (ap_regs_size a)) as [L3|L3]; [split; [discriminate|lia]|].
  cbn [res_pass negb]. rewrite <- (id_iff (r_ids r)).
  destruct (session_id_new_random 0 (r_ids r)) as [sid|]; [|split; [discriminate|intros (_ & _ & _ & _ & _ & _ & x & K); discriminate]].
  split; [intros _|].
  { split; [reflexivity|]. split; [reflexivity|]. split; [exact W|]. split; [exact L1|]. split; [exact L2|]. split; [exact L3|]. eauto. }
  intros _. destruct (is_known_application _ _); [reflexivity|]. unfold attest_screens. rewrite add_short by reflexivity. cbn [List.app].
  destruct (ap_token a =? 0); [|rewrite add_short by reflexivity; cbn [List.app]]; cbv zeta.
  - destruct (fits [SC_INFO (str "Confirm Attest Input")]) as (g & -> & E1 & ->); [cbn; lia|]. reflexivity.
  - destruct (fits [SC_INFO (str "Confirm Attest Input"); ui_application_id_screen (ap_token a)]) as (g & -> & E1 & ->); [cbn; lia|]. reflexivity.
Qed.
Lemma show_total : forall c t k, ((exists x, bip32_path_format 60 (op_path c) = Some x) <-> okb (p2pk_show_token_and_path c t k)).
Proof.
  intros c t k. unfold p2pk_show_token_and_path, ui_bip32_path_screen.
  destruct (bip32_path_format 60 (op_path c)) as [x|]; [|split; [intros [x K]; discriminate|intros [x K]; discriminate]].
  split; [|intros _; eauto]. intros _.
  unfold add_operation_approve_screens. rewrite add_short by reflexivity. cbn [List.app].
  change (MAX_NUMBER_OF_SCREENS <? blen [SC_PATH (str "P2PK Signing") x true] + 3) with false. cbv iota zeta.
  assert (G : forall f1, (length f1 <= 2)%nat -> okb (bind (match ui_approve_reject_screens f1 with Some f => Ok f | None => Fail SW_UB end)
     (fun f => bind (display f) (fun f0 => Ok (f0, op_set_union c (OU_APPROVE t)))))).
  { intros f1 L. destruct (fits f1) as (g & -> & -> & D); [lia|]. cbn [bind]. unfold display. rewrite D. cbn [bind]. apply okb_ok. }
  apply G. destruct k; [cbn; lia|]. rewrite add_short by reflexivity. cbn. lia.
Qed.
Theorem accepts_sign : forall E key tr st p2 data r, env_ok E -> history E key tr st -> event_ok (Apdu CLA INS_SIGN 1 p2 data r) ->
  (accepted (snd (step E st (Apdu CLA INS_SIGN 1 p2 data r))) = true <-> on_screen tr = None /\ sign_request_ok E p2 data r).
Proof.
  intros E key tr st p2 data r Henv H Hev. rewrite (idle_iff _ _ _ _ Henv H). unfold sign_request_ok, id_drawn, nonce_drawn.
  assert (Ok : bytes_ok data = true) by apply Hev.
  destruct (N.eqb_spec p2 0) as [->|P2]; [split; [intro A; apply sign_params in A; lia|intros (_ & K & _); discriminate]|].
  rewrite sign_step by (assumption || discriminate).
  unfold handler_sign. destruct (st_busy st); [split; [discriminate|intros [K _]; discriminate]|]. unfold one_or_two. change (1 =? 1) with true. cbv iota.
  destruct ((p2 =? 1) || (p2 =? 2)) eqn:P.
  2: { apply orb_false_iff in P as [-> ->]. split; [discriminate|intros (_ & K & _); discriminate]. }
  replace (negb (p2 =? 1) && negb (p2 =? 2)) with false by (destruct (p2 =? 1); [reflexivity|cbn [orb] in P; rewrite P; reflexivity]).
  unfold sign_init. pose proof (parse_sign_iff (p2 =? 2) p2 data eq_refl) as PI.
  destruct (parse_sign_init (p2 =? 2) data) as [[[net p] token]|s] eqn:Hp.
  2: { split; [intro A; exfalso; eapply (resp_not _ (parse_sign_init (p2 =? 2) data)); [apply nok_sign|exact Hp|exact A]|].
       intros (_ & _ & W & _ & Pa & Le & _). exfalso. eapply okb_fail. apply PI. split; [exact W|]. split; [apply address_ge1, Pa|exact Le]. }
  assert (W : whole_data INS_SIGN 1 p2 data /\ (1 <= length (start_path data) <= 10)%nat) by (apply PI, okb_ok). clear PI.
  apply parse_sign_spec in Hp as (-> & -> & _). rewrite <- supported_iff, <- (address_iff (start_path data)).
  unfold p2pk_init. destruct (ergo_path_validate (start_path data) V_ADDRESS_GE5) eqn:V; cbn [negb].
  2: { split; [discriminate|]. intros (_ & _ & _ & _ & Pa & _). discriminate. }
  destruct (network_id_is_supported (start_network data)) eqn:Nw; cbn [negb].
  2: { split; [discriminate|]. intros (_ & _ & _ & K & _). discriminate. }
  destruct (e_derive E (start_path data)) as [[secret chain]|] eqn:D.
  2: { split; [discriminate|]. intros (_ & _ & _ & _ & _ & _ & (s & c & K & _) & _). discriminate. }
  pose proof (loop_iff E secret MAX_ITERATIONS (r_nonces r)) as LI. fold (schnorr_sign_init E secret (r_nonces r)) in LI. change MAX_ITERATIONS with 100%nat in LI.
  destruct (schnorr_sign_init E secret (r_nonces r)) as [[hash key']|].
  2: { split; [discriminate|]. intros (_ & _ & _ & _ & _ & _ & (s & c & K & U) & Nd & _).
       assert (s = secret) by congruence. subst s. destruct LI as [_ LI]. destruct (LI (conj U Nd)) as [x X]. discriminate. }
  destruct LI as [LI _]. destruct (LI (ex_intro _ _ eq_refl)) as [Us Nd]. clear LI. rewrite <- (id_iff (r_ids r)).
  destruct (session_id_new_random 0 (r_ids r)) as [sid|]; [|split; [discriminate|intros (_ & _ & _ & _ & _ & _ & _ & _ & _ & x & K); discriminate]].
  pose proof (path_fits_iff 60 (start_path data) (proj2 W) (path_words 1 data Ok)) as FI. rewrite <- FI.
  match goal with |- context [p2pk_show_token_and_path ?c ?t ?k] => rewrite (show_total c t k : (exists x, bip32_path_format 60 (start_path data) = Some x) <-> _);
    pose proof (nok_token_and_path c t k) as Nk; destruct (p2pk_show_token_and_path c t k) as [[f op]|s] eqn:Sh end.
  - split; [|reflexivity]. intros _. split; [reflexivity|]. split; [reflexivity|]. split; [apply W|]. split; [reflexivity|]. split; [reflexivity|].
    split; [apply W|]. split; [eauto|]. split; [exact Nd|]. split; [apply okb_ok|eauto].
  - split; [intro A; rewrite err_not_accepted in A by exact Nk; discriminate|].
    intros (_ & _ & _ & _ & _ & _ & _ & _ & K & _). exfalso. eapply okb_fail, K.
Qed.
