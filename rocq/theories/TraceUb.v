(** No step of the device reaches undefined behaviour or an overflowing screen table, save
    the page of a token with a deficit of exactly 2^63. *)
From Coq Require Import String.
From Verif Require Import Lib Env Bip32 Base58 Address ErgoTree Schnorr TxTable TxBox TxFull Amounts OutputInfo UiFlow P2pkOp App
  SpecTree SpecTrace SpecTx SpecApdu SpecAmounts SpecScreen SpecPages Moves SignInv SignInput SignOutput SignBox SignTree SignRest SignShow
  TraceSign TraceAttest TraceScreen NoUb PageProofs TraceShow.

#[local] Arguments N.eqb : simpl never.
#[local] Arguments N.ltb : simpl never.
#[local] Arguments N.leb : simpl never.
#[local] Arguments N.sub : simpl never.
#[local] Arguments blen : simpl never.
#[local] Arguments num : simpl never.
#[local] Arguments slice : simpl never.

(** ** No operation reports a full screen table *)

Definition nov {A} (x : out A) : Prop := x <> Fail SW_SCREENS_BUFFER_OVERFLOW.
Lemma nov_bind : forall A B (x : out A) (f : A -> out B), nov x -> (forall a, nov (f a)) -> nov (bind x f).
Proof. intros A B [a|s] f H K; cbn; [apply K|]. intro X. apply H. injection X as ->. reflexivity. Qed.
Lemma nov_rd : forall A (x : option A), nov (rd x). Proof. intros A [a|]; discriminate. Qed.
Lemma nov_finished : forall A l (a : A), nov (finished l a). Proof. intros A [|x l] a; discriminate. Qed.
Lemma nov_token : forall b l, nov (rd_token b l). Proof. intros [|] l; [apply nov_rd|discriminate]. Qed.
Lemma nov_path : forall l, nov (stx_read_bip32_path l).
Proof. intros l. unfold stx_read_bip32_path. destruct (read_u8 l) as [[n m]|]; [|discriminate]. destruct (read_bip32_path n m); discriminate. Qed.
Lemma nov_tx_call : forall c call, nov (tx_call c call).
Proof. intros c call. unfold tx_call, tx_result. destruct (op_union_of c); try discriminate. destruct (call (op_fs c t)) as [[] s]; discriminate. Qed.
Lemma nov_check : forall c, nov (check_tx_finished c).
Proof. intros c. unfold check_tx_finished. destruct (op_union_of c); try discriminate. destruct (fl_state (tx_full t)); discriminate. Qed.
Lemma nov_output_call : forall c call, (forall o, fst (call o) <> SW_SCREENS_BUFFER_OVERFLOW) -> nov (output_call c call).
Proof.
  intros c call K. unfold output_call. destruct (op_union_of c); try discriminate. destruct (tx_output t); try discriminate.
  specialize (K o). destruct (call o) as [s o']. cbn [fst] in K. destruct s; try discriminate. contradiction.
Qed.
Lemma nov_maybe : forall b c, fst (maybe_finished_sw b c) <> SW_SCREENS_BUFFER_OVERFLOW.
Proof. intros b c. unfold maybe_finished_sw. destruct (maybe_finished b c) as [r c']. cbn [fst]. destruct r; discriminate. Qed.
Lemma nov_set_fee : forall b o, fst (output_info_set_fee b o) <> SW_SCREENS_BUFFER_OVERFLOW.
Proof. intros b o. unfold output_info_set_fee. destruct (oi_type o); try discriminate. apply nov_maybe. Qed.
Lemma nov_set_bip32 : forall b o p, fst (output_info_set_bip32 b o p) <> SW_SCREENS_BUFFER_OVERFLOW.
Proof. intros b o p. unfold output_info_set_bip32. destruct (oi_type o); try discriminate. apply nov_maybe. Qed.
Lemma nov_chunk : forall b o d f, fst (output_info_add_tree_chunk b o d f) <> SW_SCREENS_BUFFER_OVERFLOW.
Proof.
  intros b o d f. unfold output_info_add_tree_chunk. cbv zeta. destruct (oi_type o); try discriminate; destruct (oi_tree_set o); try discriminate; apply nov_maybe.
Qed.
Ltac novs :=
  repeat first [ discriminate | apply nov_rd | apply nov_finished | apply nov_token | apply nov_path | apply nov_tx_call
               | apply nov_check | apply nov_output_call; intros ?; first [apply nov_set_fee | apply nov_set_bip32 | apply nov_chunk]
               | apply nov_bind; [|intros ?] | match goal with |- context [let '(_, _) := ?a in _] => destruct a end
               | match goal with |- nov (match ?x with _ => _ end) => destruct x end
               | progress cbv beta zeta ].
Lemma nov_start : forall c i d o t, nov (p2pk_start_tx c i d o t).
Proof.
  intros. unfold p2pk_start_tx. destruct (op_state_of c); try discriminate.
  destruct (full_init op_tget op_tset i d o t (op_hash c) (op_amounts c, None)) as [r s]. unfold tx_result.
  destruct r; discriminate.
Qed.
Lemma nov_add_input : forall c b e f x, nov (p2pk_add_input c b e f x).
Proof.
  intros. unfold p2pk_add_input. assert (G : forall c', nov (match amounts_add_input (op_amounts c') e with
      | (SW_OK, a) => Ok (mk_p2pk OP_INPUTS_STARTED (op_key c') (op_path c') (op_hash c') (op_network c') a (op_union_of c'))
      | (s, _) => Fail s end)).
  { intros c'. unfold amounts_add_input. destruct (SafeInt.checked_add_u64 _ _); discriminate. }
  destruct (op_state_of c); try discriminate; (apply nov_bind; [apply nov_tx_call|intros c1]; apply nov_bind; [apply nov_tx_call|intros c2]; apply G).
Qed.
Lemma nov_add_output : forall c v t h n r, nov (p2pk_add_output c v t h n r).
Proof. intros. unfold p2pk_add_output. novs. Qed.
Lemma nov_tree : forall E c d, nov (p2pk_add_output_tree_chunk E c d).
Proof.
  intros. unfold p2pk_add_output_tree_chunk. destruct (op_state_of c); try discriminate. destruct (op_union_of c); try discriminate.
  destruct (full_add_box_ergo_tree (op_box_cb E) (op_fs c t) d) as [r s]. destruct r; try discriminate; novs.
Qed.
Lemma nov_fee : forall E c, nov (p2pk_add_output_tree_fee E c). Proof. intros. unfold p2pk_add_output_tree_fee. novs. Qed.
Lemma nov_change : forall E c p k, nov (p2pk_add_output_tree_change E c p k). Proof. intros. unfold p2pk_add_output_tree_change. novs. Qed.
Lemma nov_frame : forall E k d, nov (parse_input_frame E k d).
Proof. intros. unfold parse_input_frame. novs. Qed.
Lemma nov_exec : forall E key op sub data x a, sign_exec E key op sub data = Some (x, a) -> nov x.
Proof.
  intros E key op sub data x a H. unfold sign_exec in H.
  repeat match type of H with
         | match ?n with _ => _ end = _ => destruct n; try discriminate
         end;
  apply (f_equal (fun o => match o with Some p => fst p | None => x end)) in H; cbn [fst] in H; subst x;
  unfold p2pk_add_tokens, p2pk_add_input_tokens, p2pk_add_input_context_extension, p2pk_add_data_inputs, parse_tx_start, parse_output_init,
    p2pk_add_output_tokens, p2pk_add_output_registers;
  repeat first [ apply nov_frame | apply nov_add_output | apply nov_tree | apply nov_fee | apply nov_change | apply nov_start | apply nov_add_input
               | progress novs ].
Qed.

(** ** Clean outputs *)

Definition clean (outs : list output) : Prop := ~ In OUb outs /\ forall b, ~ In (OResp b SW_SCREENS_BUFFER_OVERFLOW) outs.
Definition fine_sw (s : sw) : bool := match s with SW_UB | SW_SCREENS_BUFFER_OVERFLOW => false | _ => true end.
Lemma clean_resp : forall s, fine_sw s = true -> clean [resp s].
Proof. intros s H. split; [intros [K|[]]; destruct s; discriminate|]. intros b [K|[]]. destruct s; discriminate. Qed.
Lemma clean_st : forall b s, fine_sw s = true -> clean [OResp b s].
Proof. intros b s H. split; [intros [K|[]]; discriminate|]. intros b' [K|[]]. injection K as _ ->. discriminate. Qed.
Lemma clean_err : forall st s st' outs, handler_err st s = (st', outs) -> fine_sw s = true -> clean outs.
Proof. intros st s st' outs H K. injection H as _ <-. apply clean_resp. exact K. Qed.
Lemma clean_ok : forall b, clean [OResp b SW_OK].
Proof. intros b. split; [intros [K|[]]; discriminate|]. intros b' [K|[]]. discriminate. Qed.
Lemma clean_show : forall k f p, clean [OShow k f p].
Proof. intros. split; [intros [K|[]]; discriminate|]. intros b' [K|[]]. discriminate. Qed.
Lemma clean_nil : clean []. Proof. split; [intros []|intros b []]. Qed.
Lemma clean_div : clean [ODiverge]. Proof. split; [intros [K|[]]; discriminate|intros b [K|[]]; discriminate]. Qed.
Lemma fine_out : forall A (x : out A) s, nub x -> nov x -> x = Fail s -> fine_sw s = true.
Proof. intros A x s H K ->. destruct s; try reflexivity; exfalso; [apply K | apply H]; reflexivity. Qed.

(** ** The handlers *)

Lemma epk_clean : forall E st data b st' outs, handler_epk E st data b = (st', outs) -> clean outs.
Proof.
  intros E st data b st' outs H. unfold handler_epk in H. destruct (st_busy st).
  { injection H as _ <-. apply clean_st. reflexivity. }
  cbv zeta in H. destruct (parse_epk b data) as [[p token]|s] eqn:Ep.
  2: { eapply clean_err; [exact H|]. eapply fine_out; [| |exact Ep]; unfold parse_epk; [nubs|novs]. }
  destruct (ergo_path_validate p V_ACCOUNT_GE3); cbn [negb] in H; [|eapply clean_err; [exact H|reflexivity]].
  destruct (generate_public_key E p) as [[pk chain]|]; [|eapply clean_err; [exact H|reflexivity]].
  destruct (is_known_application _ _). { injection H as _ <-. apply clean_ok. }
  destruct (ui_bip32_path_screen p (str "Path") 60 false) as [s|]; [|eapply clean_err; [exact H|reflexivity]].
  set (f := if token =? 0 then add s (add (SC_INFO (str "Ext PubKey Export")) []) else
            add (ui_application_id_screen token) (add s (add (SC_INFO (str "Ext PubKey Export")) []))) in *.
  assert (Hf : (length f <= 4)%nat). { unfold f. destruct (token =? 0); vm_compute; lia. }
  destruct (fits f Hf) as (g & G1 & G2 & G3). rewrite G1, G3 in H. injection H as _ <-. apply clean_show.
Qed.
Lemma da_clean : forall E st data d b st' outs, handler_da E st data d b = (st', outs) -> clean outs.
Proof.
  intros E st data dd b st' outs H. unfold handler_da in H. destruct (st_busy st).
  { injection H as _ <-. apply clean_st. reflexivity. }
  cbv zeta in H. destruct (parse_da b data) as [[[net p] token]|s] eqn:Ep.
  2: { eapply clean_err; [exact H|]. eapply fine_out; [| |exact Ep]; unfold parse_da; [nubs|novs]. }
  destruct (ergo_path_validate p V_ADDRESS_GE5); cbn [negb] in H; [|eapply clean_err; [exact H|reflexivity]].
  destruct (generate_public_key E p) as [[pk chain]|]; [|eapply clean_err; [exact H|reflexivity]].
  destruct (ergo_address_from_pubkey (e_blake E) net pk) as [addr|]; [|injection H as _ <-; apply clean_st; reflexivity].
  destruct (negb dd && _). { injection H as _ <-. apply clean_ok. }
  destruct (da_screens (negb dd) token p addr) as [f|s] eqn:Es.
  - destruct (ui_display_screens f); injection H as _ <-; [apply clean_show|apply clean_nil].
  - eapply clean_err; [exact H|]. unfold da_screens in Es. destruct (ui_bip32_path_screen p (str "Path") 60 false) as [x|]; [|injection Es as <-; reflexivity].
    set (f0 := add x (add (SC_INFO (str (if negb dd then "Confirm Send Address" else "Confirm Address"))) [])) in *.
    assert (H0 : length f0 = 2%nat) by reflexivity. cbv zeta in Es.
    destruct (if negb dd then Ok f0 else _) as [f1|s1] eqn:E1; cbn [bind] in Es.
    2: { injection Es as <-. destruct (negb dd); [discriminate|]. destruct (base58_encode addr P2PK_ADDRESS_STRING_MAX_LEN) as [y|]; [|injection E1 as <-; reflexivity].
         destruct (Nat.leb _ _); [injection E1 as <-; reflexivity|discriminate]. }
    assert (H1 : (length f1 <= 3)%nat).
    { destruct (negb dd); [injection E1 as <-; lia|]. destruct (base58_encode addr P2PK_ADDRESS_STRING_MAX_LEN) as [y|]; [|discriminate].
      destruct (Nat.leb _ _); [discriminate|]. injection E1 as <-. rewrite add_short by (unfold blen; lia). rewrite app_length. cbn [length]. lia. }
    match type of Es with context [ui_approve_reject_screens ?y] => set (f2 := y) in * end.
    assert (H2 : (length f2 <= 4)%nat).
    { unfold f2. destruct (token =? 0); [lia|]. rewrite add_short by (unfold blen; lia). rewrite app_length. cbn [length]. lia. }
    destruct (fits _ H2) as (g & G1 & G2 & _). rewrite G1 in Es. discriminate.
Qed.

Lemma sw_of_res_fine : forall r, r <> R_UB -> fine_sw (sw_of_res r) = true.
Proof. intros r H. destruct r; try reflexivity. contradiction. Qed.
Lemma attest_call_safe : forall sub data call s, attest_call sub data = Some call -> fst (call s) <> R_UB.
Proof.
  intros sub data call s H. unfold attest_call in H.
  repeat match type of H with match ?n with _ => _ end = _ => destruct n; try discriminate end; injection H as <-.
  - eapply (add_tokens_safe); try apply attest_cb_safe; intros; exact I.
  - eapply (regs_safe); try apply attest_cb_safe; intros; exact I.
  - eapply (add_tree_safe); try apply attest_cb_safe; intros; exact I.
Qed.
Lemma box_call_clean : forall E st c sub data call st' outs, attest_call sub data = Some call ->
  attest_box_call E st c call = (st', outs) -> clean outs.
Proof.
  intros E st c sub data call st' outs Hc K. unfold attest_box_call in K.
  destruct (at_state c); try (eapply clean_err; [exact K|reflexivity]).
  pose proof (attest_call_safe _ _ _ (attest_bs c) Hc) as Hs. destruct (call (attest_bs c)) as [rs x]. cbn [fst] in Hs.
  destruct (res_pass rs) eqn:Er.
  2: { eapply clean_err; [destruct rs; try discriminate Er; exact K|]. apply sw_of_res_fine. exact Hs. }
  destruct rs; try discriminate Er.
  - unfold check_box_finished in K. destruct (bx_state (at_box (attest_put c x))) eqn:Eb;
      try (injection K as _ <-; apply clean_ok).
    unfold box_id_hash in K. cbn [attest_bs bs_box] in K. rewrite Eb in K. injection K as _ <-. apply clean_ok.
  - injection K as _ <-. apply clean_ok.
Qed.
Lemma attest_clean : forall E st data p1 p2 r st' outs, shape st -> handler_attest E st data p1 p2 r = (st', outs) -> clean outs.
Proof.
  intros E st data p1 p2 r st' outs Sh H. unfold handler_attest in H. destruct (st_busy st).
  { injection H as _ <-. apply clean_st. reflexivity. }
  rewrite match_sub in H.
  assert (Hin : forall k, (match st_cmd st with
      | CMD_ATTEST => match st_ctx st with
                      | X_ATTEST c => if p2 =? at_session c then k c else handler_err st SW_BAD_SESSION_ID
                      | _ => handler_err st SW_UB
                      end
      | _ => handler_err st SW_BAD_STATE end) = (st', outs) -> (forall c, k c = (st', outs) -> clean outs) -> clean outs).
  { intros k K C. destruct (st_cmd st) eqn:Ec; try (eapply clean_err; [exact K|reflexivity]).
    unfold shape in Sh. destruct (st_ctx st) as [|x|x|c|x].
    - destruct Sh as (_ & _ & [S|S]); congruence.
    - destruct Sh as (_ & _ & S); congruence.
    - destruct Sh as (_ & _ & S); congruence.
    - destruct (p2 =? at_session c); [apply (C c K)|eapply clean_err; [exact K|reflexivity]].
    - destruct Sh as (S & _); congruence. }
  destruct (p1 =? 1) eqn:E1.
  { destruct (negb (p2 =? 1) && negb (p2 =? 2)); [eapply clean_err; [exact H|reflexivity]|].
    unfold attest_init in H. destruct (parse_attest_init (p2 =? 2) data) as [a|s] eqn:Ep.
    2: { eapply clean_err; [exact H|]. eapply fine_out; [| |exact Ep]; unfold parse_attest_init; [nubs|novs]. }
    destruct (box_init (ap_value a) (ap_tree_size a) (ap_height a) (ap_tokens_count a) (ap_regs_size a) [] ([] : list (token_id * N))) as [rs b] eqn:Ei.
    destruct (res_pass rs) eqn:Er1; cbn [negb] in H.
    2: { eapply clean_err; [exact H|]. unfold box_init in Ei. repeat match type of Ei with context [if ?c then _ else _] => destruct c end; injection Ei as <- _; try reflexivity; discriminate. }
    destruct (session_id_new_random 0 (r_ids r)) as [session|]; [|injection H as _ <-; apply clean_div].
    cbv zeta in H. destruct (is_known_application _ _). { injection H as _ <-. apply clean_ok. }
    unfold attest_screens in H. cbv zeta in H.
    set (f := if ap_token a =? 0 then add (SC_INFO (str "Confirm Attest Input")) [] else
              add (ui_application_id_screen (ap_token a)) (add (SC_INFO (str "Confirm Attest Input")) [])) in *.
    assert (Hf : (length f <= 4)%nat). { unfold f. destruct (ap_token a =? 0); vm_compute; lia. }
    destruct (fits f Hf) as (g & G1 & G2 & G3). rewrite G1, G3 in H. injection H as _ <-. apply clean_show. }
  destruct (p1 =? 2) eqn:E2. { eapply Hin; [exact H|]. intros c K. eapply (box_call_clean E st c 2 data); [reflexivity|exact K]. }
  destruct (p1 =? 3) eqn:E3. { eapply Hin; [exact H|]. intros c K. eapply (box_call_clean E st c 3 data); [reflexivity|exact K]. }
  destruct (p1 =? 4) eqn:E4. { eapply Hin; [exact H|]. intros c K. eapply (box_call_clean E st c 4 data); [reflexivity|exact K]. }
  destruct (p1 =? 5) eqn:E5; [|eapply clean_err; [exact H|reflexivity]].
  eapply Hin; [exact H|]. intros c K. unfold attest_get_frame in K.
  destruct (at_state c); try (eapply clean_err; [exact K|reflexivity]).
  destruct (bind (rd (read_u8 data)) (fun '(i, l) => finished l i)) as [i|s] eqn:Eb.
  2: { eapply clean_err; [exact K|]. eapply fine_out; [| |exact Eb]; [nubs|novs]. }
  destruct (_ <=? i); [eapply clean_err; [exact K|reflexivity]|]. injection K as _ <-. apply clean_ok.
Qed.

(** The paged flows fit and have between one and 254 pages. *)
Lemma paged_fits : forall title n, 1 <= n <= 254 ->
  exists g d, (match ui_add_dynamic_flow_screens (add (SC_INFO title) []) n with
      | None => Fail SW_SCREENS_BUFFER_OVERFLOW
      | Some (f, d) => if MAX_NUMBER_OF_SCREENS <? blen f + 2 then Fail SW_SCREENS_BUFFER_OVERFLOW
          else match ui_approve_reject_screens f with None => Fail SW_UB | Some f => Ok (f, d) end end) = Ok (g, d) /\ display g = Ok (paged_flow title).
Proof.
  intros title n H. unfold ui_add_dynamic_flow_screens.
  assert (Z : (n =? 0) || (n =? INDEX_NOT_EXIST) = false).
  { apply orb_false_iff. unfold INDEX_NOT_EXIST. split; apply N.eqb_neq; lia. }
  rewrite Z. eexists. eexists. split; reflexivity.
Qed.
Lemma output_screen_fits : forall E s d h op pre o, wf E d h -> op_tx E s d h op -> sx_outputs d = pre ++ [o] ->
  exists x, p2pk_show_output_confirm_screen op = Ok x.
Proof.
  intros E s d h op pre o W T Ho. destruct T as (_ & Hst & _ & A & oi & Hinf & Hu).
  apply last_info_cur with (pre := pre) (o := o) in Hinf as (x & -> & R); [|assumption].
  unfold p2pk_show_output_confirm_screen. rewrite Hu. cbn [tx_output].
  assert (G : exists y, bind (add_output_screens [] x) (fun fd => bind (display (fst fd)) (fun f =>
      Ok (f, snd fd, op_set_union op (OU_TX (mk_tx (tx_full (mk_tx (full_of E d h) (Some x) (last_approved (sx_outputs d)))) (Some x) []))))) = Ok y).
  { unfold add_output_screens. change (MAX_NUMBER_OF_SCREENS <? blen ([] : flow) + 6) with false. cbv iota zeta.
    set (n := match oi_type x with OT_BIP32 _ => 1 | _ => _ end).
    assert (Hn : 1 <= n <= 254).
    { assert (Hle : output_info_used_tokens_count x <= 20).
      { unfold output_info_used_tokens_count, blen. rewrite <- (slots_of_length _ _ _ 0). pose proof (ri_tokens _ _ _ _ R) as [O1 _ _].
        pose proof (slots_le _ (fun v => 0 <? v) (oi_tokens x) O1). lia. }
      unfold n, u8. rewrite N.mod_small by (unfold two8; lia). destruct (oi_type x); lia. }
    destruct (paged_fits (str "Confirm Output") n Hn) as (g & dy & G1 & G2). rewrite G1. cbn [bind fst snd]. rewrite G2. eexists. reflexivity. }
  rewrite Hst. unfold op_phase. rewrite Ho. destruct (pre ++ [o]) as [|y l] eqn:El; [destruct pre; discriminate|].
  rewrite Ho, <- El in *. destruct (outputs_in d h); exact G.
Qed.
Lemma confirm_screen_fits : forall E s d h op, op_tx E s d h op -> op_state_of op = OP_TX_FINISHED ->
  exists x, p2pk_show_confirm_screen op = Ok x.
Proof.
  intros E s d h op T Hst. destruct T as (_ & _ & _ & A & _). unfold p2pk_show_confirm_screen. rewrite Hst.
  unfold add_transaction_screens. change (MAX_NUMBER_OF_SCREENS <? blen ([] : flow) + 6) with false. cbv iota zeta.
  set (n := u8 _). assert (Hn : 1 <= n <= 254).
  { assert (Hle : amounts_non_zero_tokens_count (op_amounts op) <= 20).
    { pose proof (ra_tokens _ _ A) as [O1 _ _ _ _]. unfold amounts_non_zero_tokens_count, blen. rewrite <- (slots_of_length _ _ _ 0).
      pose proof (slots_le _ (fun v => negb (v =? 0)%Z) (am_tokens (op_amounts op)) O1). lia. }
    unfold n, u8. rewrite N.mod_small by (unfold two8; lia). lia. }
  destruct (paged_fits (str "Approve Signing") n Hn) as (g & dy & G1 & G2). rewrite G1. cbn [bind fst snd]. rewrite G2. eexists. reflexivity.
Qed.
Lemma token_path_clean : forall c t k s, p2pk_show_token_and_path c t k = Fail s -> fine_sw s = true.
Proof.
  intros c t k s H. unfold p2pk_show_token_and_path in H. destruct (ui_bip32_path_screen _ _ _ _) as [x|]; [|injection H as <-; reflexivity].
  exfalso. revert H. destruct k; discriminate.
Qed.

Lemma sign_clean : forall E key tr st data p1 p2 r st' outs, env_ok E -> history E key tr st -> event_ok (Apdu CLA INS_SIGN p1 p2 data r) ->
  handler_sign E st data p1 p2 r = (st', outs) -> clean outs.
Proof.
  intros E key tr st data p1 p2 r st' outs Henv Hh Hev H. pose proof (history_shape _ _ _ _ Hh) as Sh.
  destruct (sign_inv_holds E key tr st Henv Hh) as [Hk I].
  unfold handler_sign in H. destruct (st_busy st) eqn:Hb.
  { injection H as _ <-. apply clean_st. reflexivity. }
  destruct (p1 =? 1).
  { destruct (negb (p2 =? 1) && negb (p2 =? 2)). { injection H as _ <-. apply clean_st. reflexivity. }
    unfold sign_init in H. destruct (parse_sign_init (p2 =? 2) data) as [[[net p] token]|s] eqn:Ep.
    2: { eapply clean_err; [exact H|]. eapply fine_out; [| |exact Ep]; unfold parse_sign_init; [nubs|novs]. }
    destruct (p2pk_init E (r_nonces r) p net) as [op|s] eqn:Ei.
    2: { eapply clean_err; [exact H|]. eapply fine_out; [| |exact Ei]; unfold p2pk_init; [nubs|novs]. }
    destruct (session_id_new_random 0 (r_ids r)) as [session|]; [|injection H as _ <-; apply clean_div].
    destruct (p2pk_show_token_and_path _ _ _) as [[f op']|s] eqn:Ef.
    - injection H as _ <-. apply clean_show.
    - eapply clean_err; [exact H|]. eapply token_path_clean. exact Ef. }
  destruct (is_sign_subcommand p1) eqn:Esub; [|eapply clean_err; [exact H|reflexivity]].
  destruct (st_cmd st) eqn:Ecmd; try (eapply clean_err; [exact H|reflexivity]).
  unfold shape in Sh. pose proof (history_shape _ _ _ _ Hh) as Sh0.
  destruct (st_ctx st) as [|x|x|x|g] eqn:Ex.
  { destruct Sh as (_ & _ & [S|S]); congruence. }
  { destruct Sh as (_ & _ & S); congruence. }
  { destruct Sh as (_ & _ & S); congruence. }
  { destruct Sh as (S & _); congruence. }
  destruct (p2 =? sg_session g); [|eapply clean_err; [exact H|reflexivity]].
  unfold sign_command in H. destruct (sg_state g) eqn:Eg; [eapply clean_err; [exact H|reflexivity]|].
  destruct I as (start & body & s & I1 & I2 & I3 & I4). unfold sign_phase in I4. rewrite Eg in I4. destruct I4 as [I4 I5].
  assert (St : streaming E s (description body) (sg_op g)).
  { pose proof (shape_idle _ Sh0 Hb) as Hm. destruct (st_ui st); try discriminate; exact I5. }
  destruct (sign_exec E (st_key st) (sg_op g) p1 data) as [[x a]|] eqn:Ee; [|eapply clean_err; [exact H|reflexivity]].
  destruct x as [op|sx].
  2: { eapply clean_err; [exact H|]. destruct sx; try reflexivity; exfalso; [apply (nov_exec _ _ _ _ _ _ _ Ee); reflexivity|].
       eapply exec_no_ub; [exact St|exact Ee]. }
  destruct Hev as (_ & _ & _ & _ & Hby & Hl & _). assert (Hl' : blen data <= 255) by (unfold blen; lia).
  destruct a.
  - injection H as _ <-. apply clean_ok.
  - destruct (exec_ok E s (st_key st) (description body) (sg_op g) p1 data op A_OUTPUT Henv Hby Hl' St Ee) as (_ & _ & X2); [discriminate|].
    destruct (X2 eq_refl) as (h & W & T & F & Ne). unfold show_output_screen_if_needed in H. cbv zeta in H.
    destruct (snoc_cases _ (sx_outputs (describe_cmd (description body) p1 data))) as [En|(pre & x & En)]; [contradiction|].
    assert (Hs : so_shown x = false) by (destruct (F pre x En) as (_ & ? & _); assumption).
    rewrite (should_show_ok E s _ h op pre x W T En Hs) in H.
    destruct (output_complete x && _); [|injection H as _ <-; apply clean_ok].
    destruct (output_screen_fits E s _ h op pre x W T En) as (y & Hy). rewrite Hy in H. destruct y as [[f d] op'].
    injection H as _ <-. apply clean_show.
  - apply exec_confirm in Ee as [-> Ee]. injection Ee as ->.
    destruct (op_state_of (sg_op g)) eqn:Est.
    all: try (unfold p2pk_show_confirm_screen in H; rewrite Est in H; eapply clean_err; [exact H|reflexivity]).
    destruct (streaming_tx' _ _ _ _ St) as (h & W & T & _); [congruence|].
    destruct (confirm_screen_fits _ _ _ _ _ T Est) as (y & Hy). rewrite Hy in H. destruct y as [[f d] op'].
    injection H as _ <-. apply clean_show.
Qed.

Lemma apdu_clean : forall E key tr st cla ins p1 p2 data r st' outs, env_ok E -> history E key tr st ->
  event_ok (Apdu cla ins p1 p2 data r) -> step E st (Apdu cla ins p1 p2 data r) = (st', outs) -> clean outs.
Proof.
  intros E key tr st cla ins p1 p2 data r st' outs Henv Hh Hev H. cbn [step] in H. unfold apdu_dispatcher in H.
  destruct (cla =? 0xE0) eqn:Ec; cbn [negb] in H; [|injection H as _ <-; apply clean_st; reflexivity].
  rewrite match_ins in H. pose proof (history_shape _ _ _ _ Hh) as Sh.
  destruct (ins =? 1). { destruct (_ || _); injection H as _ <-; [apply clean_st; reflexivity|apply clean_ok]. }
  destruct (ins =? 2). { destruct (_ || _); injection H as _ <-; [apply clean_st; reflexivity|apply clean_ok]. }
  destruct (ins =? 0x10). { destruct (_ || _); [injection H as _ <-; apply clean_st; reflexivity|eapply epk_clean; exact H]. }
  destruct (ins =? 0x11). { destruct (_ || _); [injection H as _ <-; apply clean_st; reflexivity|eapply da_clean; exact H]. }
  destruct (ins =? 0x20). { destruct (_ || _); [injection H as _ <-; apply clean_st; reflexivity|eapply attest_clean; eauto]. }
  destruct (ins =? 0x21) eqn:Ei. { destruct (_ || _); [injection H as _ <-; apply clean_st; reflexivity|].
    apply N.eqb_eq in Ec, Ei. subst. eapply sign_clean; eauto. }
  injection H as _ <-. apply clean_st. reflexivity.
Qed.

(** ** The pages *)

Lemma token_pages_in : forall E value k ids pages s, token_pages E value k ids pages -> In (Fail s) pages ->
  exists id t, In id ids /\ value id t (Fail s).
Proof.
  intros E value k ids pages s H. induction H; intros K; [destruct K|]. destruct K as [K|[K|K]]; [discriminate| |].
  - subst pg. exists id, t2. split; [left; reflexivity|assumption].
  - destruct (IHtoken_pages K) as (i & t & A & B). exists i, t. split; [right; exact A|exact B].
Qed.
Lemma path_page_ub : forall t p, ~ path_page t p (Fail SW_UB).
Proof. intros t p (full & _ & [[_ K]|[_ [K|K]]]); discriminate. Qed.
Lemma address_page_ub : forall E t n ty c s, ~ address_page E t n ty c (Fail s).
Proof. intros E t n ty c s (x & _ & K). discriminate. Qed.
Lemma output_pages_ub : forall E n d o pages, output_pages E n d o pages -> ~ In (Fail SW_UB) pages.
Proof.
  intros E n d o pages (dest & first & rest & _ & -> & Hd & Hr) [K|K].
  - subst first. destruct dest as [t| |p]; cbn in Hd; [|discriminate|eapply path_page_ub; exact Hd].
    destruct Hd as [(pk & _ & K)|[(h & _ & K)|(_ & _ & K)]]; eapply address_page_ub; exact K.
  - destruct dest as [t| |p]; [| |subst; destruct K]; destruct Hr as (second & tokens & -> & (x & _ & Hs) & Ht); (destruct K as [K|K]; [congruence|]);
      destruct (token_pages_in _ _ _ _ _ _ Ht K) as (id & y & _ & z & _ & B); discriminate.
Qed.
Lemma confirm_pages_ub : forall E p d pages, confirm_pages E p d pages -> In (Fail SW_UB) pages ->
  exists id, In id (token_ids d) /\ balance d id = (- 2 ^ 63)%Z.
Proof.
  intros E p d pages (f & s & t & tokens & -> & Hf & (x & _ & Hs) & (y & _ & Ht) & Hk) [K|[K|[K|K]]].
  - subst f. exfalso. eapply path_page_ub. exact Hf.
  - congruence.
  - congruence.
  - destruct (token_pages_in _ _ _ _ _ _ Hk K) as (id & z & A & B). exists id. unfold unbalanced in A. apply filter_In in A as [A _]. split; [exact A|].
    unfold imbalance in B. destruct (balance d id =? - 2 ^ 63)%Z eqn:Eb; [apply Z.eqb_eq; exact Eb|]. destruct B as (n & _ & B). discriminate.
Qed.

(** The page drawn by a button is the one announced. *)
Lemma page_announced : forall E key tr st e d i, env_ok E -> history E key tr st -> has_pages (st_ui st) = true ->
  (e = UiUpper /\ ui_dynamic_step_left (st_dyn st) = (d, Some i) \/ e = UiLower /\ ui_dynamic_step_right (st_dyn st) = (d, Some i)) ->
  exists q f pages, on_screen tr = Some (q, st_ui st, f, pages) /\ i < blen pages /\
    nth (N.to_nat i) pages (Fail SW_UB) = page_of E (st_ui st) (st_ctx st) i.
Proof.
  intros E key tr st e d i Henv Hh Hp Hi. pose proof (history_shape _ _ _ _ Hh) as Sh.
  assert (B : st_busy st = true) by (apply busy_ui; [exact Sh|]; destruct (st_ui st); try discriminate; reflexivity).
  destruct (screen_inv_holds E key tr st Henv Hh) as [_ S]. rewrite B in S. destruct S as (q & pages & S1 & S2 & S3).
  exists q, (st_flow st), pages. split; [exact S1|].
  assert (X : exists g, st_ctx st = X_SIGN g /\ sg_state g = SG_APPROVED).
  { unfold shape in Sh. destruct (st_ctx st) as [|x|x|x|g].
    - destruct Sh as (K & _). congruence.
    - destruct Sh as (_ & K & _). rewrite K in Hp. discriminate.
    - destruct Sh as (_ & K & _). rewrite K in Hp. discriminate.
    - destruct Sh as (_ & K). destruct (at_state x); destruct K as [K1 K2]; try congruence. rewrite K2 in Hp. discriminate.
    - exists g. split; [reflexivity|]. destruct Sh as (_ & Sh). destruct (sg_state g); [|reflexivity]. destruct Sh as (_ & K & _). rewrite K in Hp. discriminate. }
  destruct X as (g & Xg & Xs). rewrite Xg, Xs in S3. destruct S3 as (sub & data & r & _ & _ & _ & A1 & A2 & _ & _).
  destruct (step_dyn_ok _ A2) as [(_ & _ & L) (_ & _ & R)].
  assert (Hlt : i < dy_count (st_dyn st)). { destruct Hi as [[_ K]|[_ K]]; rewrite K in *; [apply (L i eq_refl)|apply (R i eq_refl)]. }
  rewrite A1. unfold pages_of, blen. rewrite map_length, seq_length. split; [lia|].
  rewrite Xg. set (pg := fun j : nat => page_of E (st_ui st) (X_SIGN g) (N.of_nat j)).
  rewrite (nth_indep _ _ (pg 0%nat)) by (rewrite map_length, seq_length; lia).
  rewrite map_nth, seq_nth by lia. unfold pg. cbn [Nat.add]. rewrite N2Nat.id. reflexivity.
Qed.

Lemma device_ub : forall E key tr st e outs, env_ok E -> history E key (tr ++ [(e, outs)]) st -> In OUb outs ->
  (e = UiUpper \/ e = UiLower) /\
  exists q f pages start body id, on_screen tr = Some (q, U_STX_TX, f, pages) /\ session_of INS_SIGN tr = Some (start, body) /\
    In id (token_ids (description body)) /\ balance (description body) id = (- 2 ^ 63)%Z.
Proof.
  intros E key tr st' e outs Henv H Hin. apply history_last in H as (st & Hh & Sh & Hev & Hstep & M & _).
  assert (Ap : forall cla ins p1 p2 data r, e <> Apdu cla ins p1 p2 data r).
  { intros cla ins p1 p2 data r ->. destruct (apdu_clean _ _ _ _ _ _ _ _ _ _ _ _ Henv Hh Hev Hstep) as [K _]. contradiction. }
  destruct M; try (exfalso; eapply Ap; reflexivity); try (exfalso; destruct Hin as [K|[]]; discriminate); try (destruct Hin; fail).
  - exfalso. destruct b; destruct Hin as [K|[]]; discriminate.
  - exfalso. destruct b; destruct Hin as [K|[]]; discriminate.
  - exfalso. destruct b; destruct Hin as [K|[]]; discriminate.
  - exfalso. apply send_not_ub in H1. destruct Hin as [K|[]]. destruct s; try discriminate. congruence.
  - split; [destruct H0 as [[-> _]|[-> _]]; auto|].
    destruct (page_announced E key tr st e d i Henv Hh H H0) as (q & f & pages & P1 & P2 & P3). rewrite H1 in P3.
    assert (Pin : In (Fail SW_UB) pages). { rewrite <- P3. apply nth_In. unfold blen in P2. lia. }
    destruct (st_ui st) eqn:Eu; try discriminate H.
    + exfalso. destruct (shown_output _ _ _ _ _ _ _ Henv Hh P1) as (start & body & pre & o & _ & _ & _ & Po).
      eapply output_pages_ub; [exact Po|exact Pin].
    + destruct (shown_confirm _ _ _ _ _ _ _ Henv Hh P1) as (start & body & Hs & Pc).
      destruct (confirm_pages_ub _ _ _ _ Pc Pin) as (id & Hid & Hb). exists q, f, pages, start, body, id. auto.
Qed.
Lemma device_clean : forall E key tr st e outs b, env_ok E -> history E key (tr ++ [(e, outs)]) st ->
  ~ In (OResp b SW_SCREENS_BUFFER_OVERFLOW) outs.
Proof.
  intros E key tr st' e outs b0 Henv H Hin. apply history_last in H as (st & Hh & Sh & Hev & Hstep & M & _).
  assert (Ap : forall cla ins p1 p2 data r, e <> Apdu cla ins p1 p2 data r).
  { intros cla ins p1 p2 data r ->. destruct (apdu_clean _ _ _ _ _ _ _ _ _ _ _ _ Henv Hh Hev Hstep) as [_ K]. eapply K. exact Hin. }
  destruct M; try (eapply Ap; reflexivity); try (destruct Hin as [K|[]]; discriminate); try (destruct Hin; fail).
  - destruct e; cbn in H; try contradiction; [eapply Ap; reflexivity|]. subst. destruct Hin as [K|[]]. discriminate.
  - destruct b; destruct Hin as [K|[]]; discriminate.
  - destruct b; destruct Hin as [K|[]]; discriminate.
  - destruct b; destruct Hin as [K|[]]; discriminate.
  - unfold p2pk_send_response in H1. destruct Hin as [K|[]]. assert (s = SW_SCREENS_BUFFER_OVERFLOW) by (destruct s; try discriminate; reflexivity). subst s.
    destruct (op_state_of (sg_op g)); try discriminate. destruct (e_derive E (op_path (sg_op g))) as [[x y]|]; [|discriminate].
    destruct (schnorr_sign_finish _ _ _ _); discriminate.
  - destruct Hin as [K|[]]. injection K as <- ->. destruct (st_ctx st) as [|x|x|x|g]; try (cbn in H1; destruct (st_ui st); discriminate).
    revert H1. unfold page_of. destruct (st_ui st); try discriminate.
    + destruct (op_union_of (sg_op g)); try discriminate. destruct (tx_output t); try discriminate.
      unfold display_output_page, output_info_print_address. repeat (match goal with |- context [match ?x with _ => _ end] => destruct x end; try discriminate).
    + unfold display_tx_page, p2pk_show_tx_screen. cbv zeta. repeat (match goal with |- context [match ?x with _ => _ end] => destruct x end; try discriminate).
Qed.
