(** Every step of the device, case by case.  The state invariant [shape] ties the command,
    its context and the flow on the screen together. *)
From Coq Require Import String.
From Verif Require Import Lib SafeInt Env Bip32 Base58 Address ErgoTree Schnorr TxTable TxBox TxFull
  Amounts OutputInfo Format InputFrame UiFlow P2pkOp App SpecTrace SpecTx SpecApdu.

#[local] Arguments N.eqb : simpl never.
#[local] Arguments N.ltb : simpl never.
#[local] Arguments N.leb : simpl never.

Definition menu_ui (k : ui_kind) : bool := match k with U_MENU | U_ABOUT => true | _ => false end.

(** ** Shape of the state *)

Definition shape (st : state) : Prop :=
  match st_ctx st with
  | X_NONE => st_busy st = false /\ menu_ui (st_ui st) = true /\ (st_cmd st = CMD_NONE \/ st_cmd st = CMD_DA)
  | X_EPK _ => st_busy st = true /\ st_ui st = U_EPK /\ st_cmd st = CMD_EPK
  | X_DA _ => st_busy st = true /\ st_ui st = U_DA /\ st_cmd st = CMD_DA
  | X_ATTEST c =>
      st_cmd st = CMD_ATTEST /\
      match at_state c with
      | AT_INITIALIZED => st_busy st = true /\ st_ui st = U_ATTEST
      | _ => st_busy st = false /\ menu_ui (st_ui st) = true
      end
  | X_SIGN g =>
      st_cmd st = CMD_SIGN /\
      match sg_state g with
      | SG_INITIALIZED => st_busy st = true /\ st_ui st = U_STX_APPROVE /\ exists token, op_union_of (sg_op g) = OU_APPROVE token
      | SG_APPROVED => (st_busy st = false /\ menu_ui (st_ui st) = true) \/
                       (st_busy st = true /\ st_ui st = U_STX_OUTPUT /\
                        exists t o, op_union_of (sg_op g) = OU_TX t /\ tx_output t = Some o) \/
                       (st_busy st = true /\ st_ui st = U_STX_TX)
      end
  end.

(** ** Refusals that change nothing *)

Definition refused (st : state) (e : event) (s : sw) : Prop :=
  match e with
  | BadApdu => s = SW_WRONG_APDU_DATA_LENGTH
  | Apdu cla ins p1 p2 data r =>
      (cla <> CLA /\ s = SW_CLA_NOT_SUPPORTED) \/
      (cla = CLA /\ known_ins ins = false /\ s = SW_INS_NOT_SUPPORTED) \/
      (cla = CLA /\ known_ins ins = true /\ params_ok ins p1 p2 = false /\ s = SW_WRONG_P1P2) \/
      (cla = CLA /\ interactive ins = true /\ params_ok ins p1 p2 = true /\ st_busy st = true /\ s = SW_BUSY) \/
      (cla = CLA /\ ins = INS_SIGN /\ p1 = 1 /\ one_or_two p2 = false /\ p2 <> 0 /\ st_busy st = false /\ s = SW_WRONG_P1P2)
  | _ => False
  end.

Definition reset (st : state) : state := set_command st CMD_NONE.

(** The attest context of a start command. *)
Definition attest_new (s : attest_state) (session : N) (a : attest_params) : attest_ctx :=
  let b := snd (box_init (ap_value a) (ap_tree_size a) (ap_height a) (ap_tokens_count a) (ap_regs_size a) []
                         ([] : list (token_id * N))) in
  mk_attest s session (ap_tx_id a) (ap_index a) (bs_box b) (bs_hash b) [] (ap_token a).
Definition attest_init_ok (a : attest_params) : Prop :=
  res_pass (fst (box_init (ap_value a) (ap_tree_size a) (ap_height a) (ap_tokens_count a) (ap_regs_size a) []
                          ([] : list (token_id * N)))) = true.
Definition attest_call (sub : N) (data : bytes) : option (bs (list (token_id * N)) -> res * bs (list (token_id * N))) :=
  match sub with
  | 0x02 => Some (fun s => box_add_tree attest_box_cb s data)
  | 0x03 => Some (fun s => box_add_tokens attest_box_cb s data None)
  | 0x04 => Some (fun s => box_add_registers attest_box_cb s data)
  | _ => None
  end.
(** The flows of the export requests. *)
Definition epk_flow (token : N) (s : screen) : flow :=
  let f := add s (add (SC_INFO (str "Ext PubKey Export")) []) in
  let f := if token =? 0 then f else add (ui_application_id_screen token) f in
  f ++ [SC_APPROVE; SC_REJECT; SC_LOOP; SC_END].
Definition attest_flow (token : N) : flow :=
  let f := add (SC_INFO (str "Confirm Attest Input")) [] in
  let f := if token =? 0 then f else add (ui_application_id_screen token) f in
  f ++ [SC_APPROVE; SC_REJECT; SC_LOOP; SC_END].

Definition sg_put (g : sign_ctx) (op : p2pk) : ctx := X_SIGN (mk_sign (sg_state g) (sg_session g) op).

(** The cells a failing request leaves in the table of screens. *)
Definition leaves (E : env) (ins p1 p2 : N) (data : bytes) (s : sw) (left : flow) : Prop :=
  left = [] \/
  (ins = INS_KEY /\ s = SW_BIP32_FORMATTING_FAILED /\ left = [SC_INFO (str "Ext PubKey Export")]) \/
  (ins = INS_ADDRESS /\ exists net p tok pk c addr, parse_da (p2 =? 2) data = Ok (net, p, tok) /\ generate_public_key E p = Some (pk, c) /\
     ergo_address_from_pubkey (e_blake E) net pk = Some addr /\ da_screens (p1 =? 1) tok p addr = Fail s /\ left = da_written (p1 =? 1) p).

Inductive move (E : env) (st : state) : event -> state -> list output -> Prop :=
(* nothing changes *)
| mv_refuse : forall e s, refused st e s -> move E st e st [OResp [] s]
| mv_version : forall data r, move E st (Apdu CLA INS_VERSION 0 0 data r) st [OResp [0; 0; 5; 0] SW_OK]
| mv_name : forall data r, move E st (Apdu CLA INS_NAME 0 0 data r) st [OResp APP_NAME SW_OK]
| mv_idle : forall e, (forall cla ins p1 p2 data r, e <> Apdu cla ins p1 p2 data r) -> e <> BadApdu -> move E st e st []
| mv_about : st_ui st = U_MENU -> move E st UiAbout (ui_menu_about st) []
| mv_back : st_ui st = U_ABOUT -> move E st UiBack (ui_menu_main st) []
(* errors *)
| mv_error : forall ins p1 p2 data r s, interactive ins = true -> params_ok ins p1 p2 = true ->
    st_busy st = false ->
    handler_error s = true \/ (s = SW_WRONG_P1P2 /\ ins = INS_ATTEST /\ p1 = 1 /\ one_or_two p2 = false) ->
    forall left, leaves E ins p1 p2 data s left -> move E st (Apdu CLA ins p1 p2 data r) (overwrite left (reset st)) [resp s]
| mv_network : forall p1 p2 data r net p tok pk c, params_ok INS_ADDRESS p1 p2 = true -> st_busy st = false ->
    parse_da (p2 =? 2) data = Ok (net, p, tok) -> ergo_path_validate p V_ADDRESS_GE5 = true ->
    generate_public_key E p = Some (pk, c) -> ergo_address_from_pubkey (e_blake E) net pk = None ->
    move E st (Apdu CLA INS_ADDRESS p1 p2 data r) (set_command st CMD_DA) [OResp [] SW_ADDRESS_GENERATION_FAILED]
| mv_diverge : forall e st', move E st e st' [ODiverge]
(* key export *)
| mv_epk_now : forall p1 data r p token pk chain, one_or_two p1 = true -> st_busy st = false ->
    parse_epk (p1 =? 2) data = Ok (p, token) -> ergo_path_validate p V_ACCOUNT_GE3 = true ->
    generate_public_key E p = Some (pk, chain) -> is_known_application token (st_connected st) = true ->
    move E st (Apdu CLA INS_KEY p1 0 data r) (reset st) [OResp (compress pk ++ chain) SW_OK]
| mv_epk_ask : forall p1 data r p token pk chain s, one_or_two p1 = true -> st_busy st = false ->
    parse_epk (p1 =? 2) data = Ok (p, token) -> ergo_path_validate p V_ACCOUNT_GE3 = true ->
    generate_public_key E p = Some (pk, chain) -> is_known_application token (st_connected st) = false ->
    ui_bip32_path_screen p (str "Path") 60 false = Some s ->
    move E st (Apdu CLA INS_KEY p1 0 data r)
      (show (set_ctx (set_command st CMD_EPK) (X_EPK (mk_epk token chain pk))) U_EPK (epk_flow token s) dyn_none)
      [OShow U_EPK (epk_flow token s) []]
| mv_epk_act : forall c b, st_ui st = U_EPK -> st_ctx st = X_EPK c ->
    move E st (if b : bool then UiApprove else UiReject)
      (ui_menu_main (reset (if b then set_connected st (ep_token c) else st)))
      [if b then OResp (compress (ep_key c) ++ ep_chain c) SW_OK else OResp [] SW_DENY]
(* address *)
| mv_da_now : forall p2 data r net p token pk c addr, one_or_two p2 = true -> st_busy st = false ->
    parse_da (p2 =? 2) data = Ok (net, p, token) -> ergo_path_validate p V_ADDRESS_GE5 = true ->
    generate_public_key E p = Some (pk, c) -> ergo_address_from_pubkey (e_blake E) net pk = Some addr ->
    is_known_application token (st_connected st) = true ->
    move E st (Apdu CLA INS_ADDRESS 1 p2 data r) (reset st) [OResp addr SW_OK]
| mv_da_ask : forall p1 p2 data r net p token pk c addr f, one_or_two p1 = true -> one_or_two p2 = true -> st_busy st = false ->
    parse_da (p2 =? 2) data = Ok (net, p, token) -> ergo_path_validate p V_ADDRESS_GE5 = true ->
    generate_public_key E p = Some (pk, c) -> ergo_address_from_pubkey (e_blake E) net pk = Some addr ->
    (p1 = 1 -> is_known_application token (st_connected st) = false) ->
    da_screens (p1 =? 1) token p addr = Ok f ->
    move E st (Apdu CLA INS_ADDRESS p1 p2 data r)
      (show (set_ctx (set_command st CMD_DA) (X_DA (mk_da token addr (p1 =? 1)))) U_DA (f ++ [SC_LOOP; SC_END]) dyn_none)
      [OShow U_DA (f ++ [SC_LOOP; SC_END]) []]
| mv_da_act : forall c b, st_ui st = U_DA -> st_ctx st = X_DA c ->
    move E st (if b : bool then UiApprove else UiReject)
      (ui_menu_main (reset (if b then set_connected st (da_token c) else st)))
      [if b then OResp (if da_send c then da_address c else []) SW_OK else OResp [] SW_DENY]
(* attestation *)
| mv_at_now : forall p2 data r a session, one_or_two p2 = true -> st_busy st = false ->
    parse_attest_init (p2 =? 2) data = Ok a -> attest_init_ok a ->
    session_id_new_random 0 (r_ids r) = Some session -> is_known_application (st_connected st) (ap_token a) = true ->
    move E st (Apdu CLA INS_ATTEST 1 p2 data r)
      (set_ctx (set_command st CMD_ATTEST) (X_ATTEST (attest_new AT_APPROVED session a))) [OResp [session] SW_OK]
| mv_at_ask : forall p2 data r a session, one_or_two p2 = true -> st_busy st = false ->
    parse_attest_init (p2 =? 2) data = Ok a -> attest_init_ok a ->
    session_id_new_random 0 (r_ids r) = Some session -> is_known_application (st_connected st) (ap_token a) = false ->
    move E st (Apdu CLA INS_ATTEST 1 p2 data r)
      (show (set_ctx (set_command st CMD_ATTEST) (X_ATTEST (attest_new AT_INITIALIZED session a))) U_ATTEST
            (attest_flow (ap_token a)) dyn_none)
      [OShow U_ATTEST (attest_flow (ap_token a)) []]
| mv_at_more : forall sub data r c call x, st_busy st = false -> st_cmd st = CMD_ATTEST -> st_ctx st = X_ATTEST c ->
    at_state c = AT_APPROVED -> attest_call sub data = Some call -> at_session c <> 0 ->
    (call (attest_bs c) = (R_MORE_DATA, x) \/ (call (attest_bs c) = (R_OK, x) /\ bx_state (bs_box x) <> BX_FINISHED)) ->
    move E st (Apdu CLA INS_ATTEST sub (at_session c) data r) (set_ctx st (X_ATTEST (attest_put c x))) [OResp [] SW_OK]
| mv_at_done : forall sub data r c call x y id, st_busy st = false -> st_cmd st = CMD_ATTEST -> st_ctx st = X_ATTEST c ->
    at_state c = AT_APPROVED -> attest_call sub data = Some call -> at_session c <> 0 ->
    call (attest_bs c) = (R_OK, x) -> bx_state (bs_box x) = BX_FINISHED ->
    box_id_hash (e_blake E) x (at_id c) (at_index c) = (R_OK, y, id) ->
    move E st (Apdu CLA INS_ATTEST sub (at_session c) data r)
      (set_ctx st (X_ATTEST (mk_attest AT_FINISHED (at_session c) id (at_index c) (bs_box y) (bs_hash y) (bs_cb x) (at_token c))))
      [OResp [get_frames_count (blen (bs_cb x))] SW_OK]
| mv_at_frame : forall i r c, st_busy st = false -> st_cmd st = CMD_ATTEST -> st_ctx st = X_ATTEST c ->
    at_state c = AT_FINISHED -> i < get_frames_count (blen (at_tokens c)) -> at_session c <> 0 ->
    move E st (Apdu CLA INS_ATTEST 0x05 (at_session c) [i] r) st
      [OResp (attested_frame (e_hmac E) (st_key st) (at_id c) (bx_value (at_box c)) (at_tokens c) i) SW_OK]
| mv_at_act : forall c b, st_ui st = U_ATTEST -> st_ctx st = X_ATTEST c ->
    move E st (if b : bool then UiApprove else UiReject)
      (ui_menu_main (if b then set_ctx (set_connected st (at_token c))
         (X_ATTEST (mk_attest AT_APPROVED (at_session c) (at_id c) (at_index c) (at_box c) (at_hash c) (at_tokens c) (at_token c)))
       else reset st))
      [if b then OResp [at_session c] SW_OK else OResp [] SW_DENY]
(* signing *)
| mv_sg_ask : forall p2 data r net p token op session f op', one_or_two p2 = true -> st_busy st = false ->
    parse_sign_init (p2 =? 2) data = Ok (net, p, token) -> p2pk_init E (r_nonces r) p net = Ok op ->
    session_id_new_random 0 (r_ids r) = Some session ->
    p2pk_show_token_and_path op token (is_known_application (st_connected st) token) = Ok (f, op') ->
    move E st (Apdu CLA INS_SIGN 1 p2 data r)
      (show (set_ctx (set_command st CMD_SIGN) (X_SIGN (mk_sign SG_INITIALIZED session op'))) U_STX_APPROVE f dyn_none)
      [OShow U_STX_APPROVE f []]
| mv_sg_more : forall sub data r g op a, st_busy st = false -> st_cmd st = CMD_SIGN -> st_ctx st = X_SIGN g ->
    sg_state g = SG_APPROVED -> sub <> 1 -> sg_session g <> 0 ->
    sign_exec E (st_key st) (sg_op g) sub data = Some (Ok op, a) ->
    (a = A_OK \/ (a = A_OUTPUT /\ p2pk_should_show_output op = Some false)) ->
    move E st (Apdu CLA INS_SIGN sub (sg_session g) data r) (set_ctx st (sg_put g op)) [OResp [] SW_OK]
| mv_sg_output : forall sub data r g op f d op', st_busy st = false -> st_cmd st = CMD_SIGN -> st_ctx st = X_SIGN g ->
    sg_state g = SG_APPROVED -> sub <> 1 -> sg_session g <> 0 ->
    sign_exec E (st_key st) (sg_op g) sub data = Some (Ok op, A_OUTPUT) ->
    p2pk_should_show_output op = Some true -> p2pk_show_output_confirm_screen op = Ok (f, d, op') ->
    move E st (Apdu CLA INS_SIGN sub (sg_session g) data r)
      (show (set_ctx st (sg_put g op')) U_STX_OUTPUT f d)
      [OShow U_STX_OUTPUT f (pages_of E U_STX_OUTPUT (sg_put g op') (dy_count d))]
| mv_sg_confirm : forall data r g f d op', st_busy st = false -> st_cmd st = CMD_SIGN -> st_ctx st = X_SIGN g ->
    sg_state g = SG_APPROVED -> sg_session g <> 0 ->
    p2pk_show_confirm_screen (sg_op g) = Ok (f, d, op') ->
    move E st (Apdu CLA INS_SIGN 0x20 (sg_session g) data r)
      (show (set_ctx st (sg_put g op')) U_STX_TX f d)
      [OShow U_STX_TX f (pages_of E U_STX_TX (sg_put g op') (dy_count d))]
| mv_sg_approve : forall e g token, st_ui st = U_STX_APPROVE -> st_ctx st = X_SIGN g -> e = UiApprove \/ e = UiPathBoth ->
    op_union_of (sg_op g) = OU_APPROVE token ->
    move E st e
      (ui_menu_main (set_ctx (set_connected st token) (X_SIGN (mk_sign SG_APPROVED (sg_session g) (sg_op g)))))
      [OResp [sg_session g] SW_OK]
| mv_sg_output_ok : forall g t o, st_ui st = U_STX_OUTPUT -> st_ctx st = X_SIGN g ->
    op_union_of (sg_op g) = OU_TX t -> tx_output t = Some o ->
    move E st UiApprove
      (ui_menu_main (set_ctx st (sg_put g (op_set_union (sg_op g)
         (OU_TX (mk_tx (tx_full t) (Some o) (match oi_type o with OT_BIP32 p => p | _ => [] end)))))))
      [OResp [] SW_OK]
| mv_sg_tx_ok : forall g s, st_ui st = U_STX_TX -> st_ctx st = X_SIGN g -> p2pk_send_response E (sg_op g) = Ok s ->
    move E st UiApprove (ui_menu_main (reset st)) [OResp s SW_OK]
| mv_sg_tx_fail : forall g s, st_ui st = U_STX_TX -> st_ctx st = X_SIGN g -> p2pk_send_response E (sg_op g) = Fail s ->
    handler_error s = true -> move E st UiApprove (ui_menu_main (reset st)) [resp s]
| mv_sg_reject : forall g, has_pages (st_ui st) = true \/ st_ui st = U_STX_APPROVE -> st_ctx st = X_SIGN g ->
    move E st UiReject (ui_menu_main (reset st)) [OResp [] SW_DENY]
(* pages *)
| mv_page_out : forall e d, has_pages (st_ui st) = true ->
    (e = UiUpper /\ ui_dynamic_step_left (st_dyn st) = (d, None) \/ e = UiLower /\ ui_dynamic_step_right (st_dyn st) = (d, None)) ->
    move E st e (set_dyn st d) []
| mv_page : forall e d i title body, has_pages (st_ui st) = true ->
    (e = UiUpper /\ ui_dynamic_step_left (st_dyn st) = (d, Some i) \/ e = UiLower /\ ui_dynamic_step_right (st_dyn st) = (d, Some i)) ->
    page_of E (st_ui st) (st_ctx st) i = Ok (title, body) ->
    move E st e (set_dyn st d) [OPage i title body]
| mv_page_fail : forall e d i s, has_pages (st_ui st) = true ->
    (e = UiUpper /\ ui_dynamic_step_left (st_dyn st) = (d, Some i) \/ e = UiLower /\ ui_dynamic_step_right (st_dyn st) = (d, Some i)) ->
    page_of E (st_ui st) (st_ctx st) i = Fail s -> s <> SW_UB -> handler_error s = true ->
    move E st e (ui_menu_main (reset st)) [OResp [] s]
| mv_page_ub : forall e d i, has_pages (st_ui st) = true ->
    (e = UiUpper /\ ui_dynamic_step_left (st_dyn st) = (d, Some i) \/ e = UiLower /\ ui_dynamic_step_right (st_dyn st) = (d, Some i)) ->
    page_of E (st_ui st) (st_ctx st) i = Fail SW_UB ->
    move E st e (set_dyn st d) [OUb].

(** ** Errors are never reported as success *)

Definition nok {A} (x : out A) : Prop := match x with Fail s => is_true (handler_error s) | _ => True end.
Lemma nok_ne : forall A (x : out A) s, nok x -> x = Fail s -> handler_error s = true.
Proof. intros A x s H ->. exact H. Qed.
Ltac exact_ok := first [exact I | exact eq_refl].
Lemma nok_bind : forall A B (x : out A) (f : A -> out B), nok x -> (forall a, nok (f a)) -> nok (bind x f).
Proof. intros A B x f H K. destruct x; cbn; auto. Qed.
Lemma nok_rd : forall A (x : option A), nok (rd x).
Proof. intros A [a|]; exact_ok. Qed.
Lemma nok_finished : forall A l (a : A), nok (finished l a).
Proof. intros A [|x l] a; exact_ok. Qed.
Lemma nok_token : forall b l, nok (rd_token b l).
Proof. intros [|] l; [apply nok_rd|exact_ok]. Qed.
Lemma nok_stx_path : forall l, nok (stx_read_bip32_path l).
Proof. intros l. unfold stx_read_bip32_path. destruct (read_u8 l) as [[n m]|]; [|exact_ok]. destruct (read_bip32_path n m); exact_ok. Qed.
Lemma nok_tx_call : forall c call, nok (tx_call c call).
Proof.
  intros c call. unfold tx_call, tx_result. destruct (op_union_of c); try exact_ok.
  destruct (call (op_fs c t)) as [r s]. destruct r; exact_ok.
Qed.
Lemma nok_check : forall c, nok (check_tx_finished c).
Proof. intros c. unfold check_tx_finished. destruct (op_union_of c); try exact_ok. destruct (fl_state (tx_full t)); exact_ok. Qed.
Definition sw_fine (s : sw) : Prop := s = SW_OK \/ handler_error s = true.
Lemma nok_output_call : forall c call, (forall o, sw_fine (fst (call o))) -> nok (output_call c call).
Proof.
  intros c call K. unfold output_call. destruct (op_union_of c); try exact_ok. destruct (tx_output t); try exact_ok.
  specialize (K o). destruct (call o) as [s o']. cbn [fst] in K. destruct K as [-> | K]; [exact_ok|].
  destruct s; try discriminate K; exact_ok.
Qed.
Lemma fine_finished : forall b c, sw_fine (fst (maybe_finished_sw b c)).
Proof.
  intros b c. unfold maybe_finished_sw. destruct (maybe_finished b c) as [r c']. cbn [fst].
  destruct (res_pass r) eqn:E; [left; destruct r; try discriminate; reflexivity|right]. destruct r; try discriminate; reflexivity.
Qed.
Lemma fine_fee : forall b o, sw_fine (fst (output_info_set_fee b o)).
Proof. intros b o. unfold output_info_set_fee. destruct (oi_type o); try (right; reflexivity). apply fine_finished. Qed.
Lemma fine_bip32 : forall b o p, sw_fine (fst (output_info_set_bip32 b o p)).
Proof. intros b o p. unfold output_info_set_bip32. destruct (oi_type o); try (right; reflexivity). apply fine_finished. Qed.
Lemma fine_chunk : forall b o d f, sw_fine (fst (output_info_add_tree_chunk b o d f)).
Proof.
  intros b o d f. unfold output_info_add_tree_chunk. cbv zeta. destruct (oi_type o); try (right; reflexivity); destruct (oi_tree_set o); try (right; reflexivity); apply fine_finished.
Qed.
Ltac noks :=
  repeat first [ exact_ok | apply nok_rd | apply nok_finished | apply nok_token | apply nok_stx_path | apply nok_tx_call
               | apply nok_check | apply nok_output_call; intros ?; first [apply fine_fee | apply fine_bip32 | apply fine_chunk]
               | apply nok_bind; [|intros ?] | match goal with |- context [let '(_, _) := ?a in _] => destruct a end
               | match goal with |- nok (match ?x with _ => _ end) => destruct x end
               | progress cbv beta zeta ].
Lemma nok_epk : forall b d, nok (parse_epk b d). Proof. intros. unfold parse_epk. noks. Qed.
Lemma nok_da : forall b d, nok (parse_da b d). Proof. intros. unfold parse_da. noks. Qed.
Lemma nok_da_screens : forall b t p a, nok (da_screens b t p a). Proof. intros. unfold da_screens. noks. Qed.
Lemma nok_attest : forall b d, nok (parse_attest_init b d). Proof. intros. unfold parse_attest_init. noks. Qed.
Lemma nok_sign : forall b d, nok (parse_sign_init b d). Proof. intros. unfold parse_sign_init. noks. Qed.
Lemma nok_op_init : forall E n p net, nok (p2pk_init E n p net). Proof. intros. unfold p2pk_init. noks. Qed.
Lemma nok_display : forall f, nok (display f). Proof. intros. unfold display. noks. Qed.
Lemma nok_token_and_path : forall c t k, nok (p2pk_show_token_and_path c t k).
Proof. intros. unfold p2pk_show_token_and_path, add_operation_approve_screens, display. noks. Qed.
Lemma nok_output_screen : forall c, nok (p2pk_show_output_confirm_screen c).
Proof. intros. unfold p2pk_show_output_confirm_screen, add_output_screens, display. noks. Qed.
Lemma nok_confirm_screen : forall c, nok (p2pk_show_confirm_screen c).
Proof. intros. unfold p2pk_show_confirm_screen, add_transaction_screens, display. noks. Qed.
Lemma nok_send : forall E c, nok (p2pk_send_response E c). Proof. intros. unfold p2pk_send_response. noks. Qed.
Lemma nok_page : forall E k c i, nok (page_of E k c i).
Proof. intros. unfold page_of, display_output_page, output_info_print_address, display_tx_page, p2pk_show_tx_screen. noks. Qed.
Lemma nok_start : forall c i d o t, nok (p2pk_start_tx c i d o t).
Proof.
  intros. unfold p2pk_start_tx. destruct (op_state_of c); try exact_ok.
  destruct (full_init op_tget op_tset i d o t (op_hash c) (op_amounts c, None)) as [r s]. unfold tx_result.
  destruct r; exact_ok.
Qed.
Lemma nok_add_input : forall c b e f x, nok (p2pk_add_input c b e f x).
Proof.
  intros. unfold p2pk_add_input. assert (G : forall c', nok (match amounts_add_input (op_amounts c') e with
      | (SW_OK, a) => Ok (mk_p2pk OP_INPUTS_STARTED (op_key c') (op_path c') (op_hash c') (op_network c') a (op_union_of c'))
      | (s, _) => Fail s end)).
  { intros c'. unfold amounts_add_input. destruct (checked_add_u64 _ _); exact_ok. }
  destruct (op_state_of c); try exact_ok; (apply nok_bind; [apply nok_tx_call|intros c1]; apply nok_bind; [apply nok_tx_call|intros c2]; apply G).
Qed.
Lemma nok_add_output : forall c v t h n r, nok (p2pk_add_output c v t h n r).
Proof. intros. unfold p2pk_add_output. noks. Qed.
Lemma nok_tree : forall E c d, nok (p2pk_add_output_tree_chunk E c d).
Proof.
  intros. unfold p2pk_add_output_tree_chunk. destruct (op_state_of c); try exact_ok. destruct (op_union_of c); try exact_ok.
  destruct (full_add_box_ergo_tree (op_box_cb E) (op_fs c t) d) as [r s]. destruct r; try exact_ok; noks.
Qed.
Lemma nok_fee : forall E c, nok (p2pk_add_output_tree_fee E c). Proof. intros. unfold p2pk_add_output_tree_fee. noks. Qed.
Lemma nok_change : forall E c p k, nok (p2pk_add_output_tree_change E c p k). Proof. intros. unfold p2pk_add_output_tree_change. noks. Qed.
Lemma nok_frame : forall E k d, nok (parse_input_frame E k d).
Proof. intros. unfold parse_input_frame. noks. Qed.
Lemma nok_exec : forall E key op sub data x a, sign_exec E key op sub data = Some (x, a) -> nok x.
Proof.
  intros E key op sub data x a H. unfold sign_exec in H.
  repeat match type of H with
         | match ?n with _ => _ end = _ => destruct n; try discriminate
         end;
  apply (f_equal (fun o => match o with Some p => fst p | None => x end)) in H; cbn [fst] in H; subst x;
  unfold p2pk_add_tokens, p2pk_add_input_tokens, p2pk_add_input_context_extension, p2pk_add_data_inputs, parse_tx_start, parse_output_init,
    p2pk_add_output_tokens, p2pk_add_output_registers;
  repeat first [ apply nok_frame | apply nok_add_output | apply nok_tree | apply nok_fee | apply nok_change | apply nok_start | apply nok_add_input
               | progress noks ].
Qed.
Lemma sw_of_res_ok : forall r, res_pass r = false -> handler_error (sw_of_res r) = true.
Proof. intros r H. destruct r; cbn in *; try discriminate; reflexivity. Qed.

(** ** A step is a move *)

Lemma match_ins : forall ins A (a b c d e f g : A),
  match ins with 0x01 => a | 0x02 => b | 0x10 => c | 0x11 => d | 0x20 => e | 0x21 => f | _ => g end =
  if ins =? 0x01 then a else if ins =? 0x02 then b else if ins =? 0x10 then c else if ins =? 0x11 then d
  else if ins =? 0x20 then e else if ins =? 0x21 then f else g.
Proof. intros. destruct ins as [|p]; [reflexivity|]. do 6 (destruct p as [p|p|]; try reflexivity). Qed.
Lemma match_sub : forall sub A (a b c d e f : A),
  match sub with 0x01 => a | 0x02 => b | 0x03 => c | 0x04 => d | 0x05 => e | _ => f end =
  if sub =? 0x01 then a else if sub =? 0x02 then b else if sub =? 0x03 then c else if sub =? 0x04 then d
  else if sub =? 0x05 then e else f.
Proof. intros. destruct sub as [|p]; [reflexivity|]. do 3 (destruct p as [p|p|]; try reflexivity). Qed.
Lemma sub_dec : forall sub, is_sign_subcommand sub = true -> In sub [0x10;0x11;0x12;0x13;0x14;0x15;0x16;0x17;0x18;0x19;0x1A;0x20].
Proof.
  intros sub H. unfold is_sign_subcommand in H. apply orb_true_iff in H as [H|H].
  - apply andb_true_iff in H as [H1 H2]. apply N.leb_le in H1, H2.
    assert (K : sub = 0x10 + (sub - 0x10)) by lia. assert (sub - 0x10 < 11) by lia.
    assert (G : forall n, (n < 11)%nat -> In (0x10 + N.of_nat n) [0x10;0x11;0x12;0x13;0x14;0x15;0x16;0x17;0x18;0x19;0x1A;0x20]).
    { intros n Hn. do 11 (destruct n as [|n]; [cbn; tauto|]). lia. }
    rewrite K. rewrite <- (N2Nat.id (sub - 0x10)). apply G. lia.
  - apply N.eqb_eq in H. subst. cbn. tauto.
Qed.
Lemma exec_none : forall E key op sub data, is_sign_subcommand sub = true -> sign_exec E key op sub data <> None.
Proof.
  intros E key op sub data H. apply sub_dec in H. cbn [In] in H.
  repeat (destruct H as [<-|H]; [cbv [sign_exec]; discriminate|]). destruct H.
Qed.
Lemma exec_confirm : forall E key op sub data x, sign_exec E key op sub data = Some (x, A_CONFIRM) -> sub = 0x20 /\ x = Ok op.
Proof.
  intros E key op sub data x H. unfold sign_exec in H.
  repeat match type of H with
         | match ?n with _ => _ end = _ => destruct n; try discriminate
         end. split; [reflexivity|]. congruence.
Qed.

(** The first screens always fit the table. *)
Lemma add_short : forall s f, blen f < 8 -> add s f = f ++ [s].
Proof.
  intros s f H. unfold add, ui_add_screen, MAX_NUMBER_OF_SCREENS. destruct (8 <=? blen f) eqn:K; [apply N.leb_le in K; lia|]. reflexivity.
Qed.
Lemma fits : forall f, (length f <= 4)%nat ->
  exists g, ui_approve_reject_screens f = Some g /\ g = f ++ [SC_APPROVE; SC_REJECT] /\
            ui_display_screens g = Some (f ++ [SC_APPROVE; SC_REJECT; SC_LOOP; SC_END]).
Proof.
  intros f H. unfold ui_approve_reject_screens, ui_display_screens, MAX_NUMBER_OF_SCREENS, blen.
  destruct (8 <? N.of_nat (length f) + 2) eqn:K; [apply N.ltb_lt in K; lia|].
  eexists. split; [reflexivity|]. split; [reflexivity|]. rewrite app_length. cbn [length].
  destruct (8 <? N.of_nat (length f + 2) + 2) eqn:K2; [apply N.ltb_lt in K2; lia|].
  rewrite <- app_assoc. reflexivity.
Qed.

Lemma handler_epk_move : forall E st data p1 r st' outs, shape st -> params_ok INS_KEY p1 0 = true ->
  handler_epk E st data (p1 =? 2) = (st', outs) -> move E st (Apdu CLA INS_KEY p1 0 data r) st' outs.
Proof.
  intros E st data p1 r st' outs Hs Hp H. unfold handler_epk in H.
  assert (Ho : one_or_two p1 = true).
  { change (params_ok INS_KEY p1 0) with (one_or_two p1 && true) in Hp. rewrite andb_true_r in Hp. exact Hp. }
  destruct (st_busy st) eqn:Hb.
  { inv H. change (resp SW_BUSY) with (OResp [] SW_BUSY). apply mv_refuse. right; right; right; left.
    split; [reflexivity|]. split; [reflexivity|]. split; [exact Hp|]. split; [exact Hb|reflexivity]. }
  cbv zeta in H.
  assert (Er : forall s, handler_error s = true -> (st', outs) = handler_err (set_command st CMD_EPK) s ->
               move E st (Apdu CLA INS_KEY p1 0 data r) st' outs).
  { intros s Hn K. inv K. apply (mv_error E st INS_KEY p1 0 data r s) with (left := []); auto. left; reflexivity. }
  destruct (parse_epk (p1 =? 2) data) as [[p token]|s] eqn:Ep.
  2: { apply (Er s); [|auto]. eapply nok_ne; [|exact Ep]. apply nok_epk. }
  destruct (ergo_path_validate p V_ACCOUNT_GE3) eqn:Ev; cbn [negb] in H.
  2: { apply (Er SW_BIP32_BAD_PATH); [reflexivity|auto]. }
  destruct (generate_public_key E p) as [[pk chain]|] eqn:Eg.
  2: { apply (Er SW_INTERNAL_CRYPTO_ERROR); [reflexivity|auto]. }
  cbn [st_connected set_command] in H. destruct (is_known_application token (st_connected st)) eqn:Ek.
  { inv H. eapply mv_epk_now; eauto. }
  destruct (ui_bip32_path_screen p (str "Path") 60 false) as [s|] eqn:Es.
  2: { inv H. apply (mv_error E st INS_KEY p1 0 data r SW_BIP32_FORMATTING_FAILED) with (left := [SC_INFO (str "Ext PubKey Export")]); auto. right; left. auto. }
  cbv zeta in H.
  set (f := if token =? 0 then add s (add (SC_INFO (str "Ext PubKey Export")) []) else
            add (ui_application_id_screen token) (add s (add (SC_INFO (str "Ext PubKey Export")) []))) in *.
  assert (Hf : (length f <= 4)%nat). { unfold f. destruct (token =? 0); vm_compute; lia. }
  destruct (fits f Hf) as (g & G1 & G2 & G3). rewrite G1, G3 in H. inv H.
  eapply mv_epk_ask; eauto.
Qed.

Lemma da_screens_len : forall b t p a f, da_screens b t p a = Ok f -> (length f <= 6)%nat.
Proof.
  intros b t p a f H. unfold da_screens in H. destruct (ui_bip32_path_screen p (str "Path") 60 false) as [s|]; [|discriminate].
  set (f0 := add s (add (SC_INFO (str (if b then "Confirm Send Address" else "Confirm Address"))) [])) in *.
  assert (H0 : length f0 = 2%nat) by reflexivity. cbv zeta in H.
  destruct (if b then Ok f0 else _) as [f1|] eqn:E1; [|discriminate].
  assert (H1 : (length f1 <= 3)%nat).
  { destruct b; [inv E1; lia|]. destruct (base58_encode a P2PK_ADDRESS_STRING_MAX_LEN) as [x|]; [|discriminate].
    destruct (Nat.leb _ _); [discriminate|]. inv E1. rewrite add_short by (unfold blen; lia). rewrite app_length. cbn [length]. lia. }
  cbn [bind] in H.
  match type of H with context [ui_approve_reject_screens ?x] => set (f2 := x) in * end.
  assert (H2 : (length f2 <= 4)%nat).
  { unfold f2. destruct (t =? 0); [lia|]. rewrite add_short by (unfold blen; lia). rewrite app_length. cbn [length]. lia. }
  destruct (fits _ H2) as (g & G1 & G2 & _). rewrite G1 in H. inv H. rewrite app_length. cbn [length]. lia.
Qed.

Lemma handler_da_move : forall E st data p1 p2 r st' outs, shape st -> params_ok INS_ADDRESS p1 p2 = true ->
  handler_da E st data (p1 =? 2) (p2 =? 2) = (st', outs) -> move E st (Apdu CLA INS_ADDRESS p1 p2 data r) st' outs.
Proof.
  intros E st data p1 p2 r st' outs Hs Hp H. unfold handler_da in H.
  assert (Ho : one_or_two p1 = true /\ one_or_two p2 = true).
  { change (params_ok INS_ADDRESS p1 p2) with (one_or_two p1 && one_or_two p2) in Hp. apply andb_true_iff in Hp. exact Hp. }
  destruct Ho as [Ho1 Ho2].
  assert (Hsend : negb (p1 =? 2) = (p1 =? 1)).
  { unfold one_or_two in Ho1. destruct (p1 =? 2) eqn:K; [apply N.eqb_eq in K; subst; reflexivity|].
    rewrite orb_false_r in Ho1. rewrite Ho1. reflexivity. }
  destruct (st_busy st) eqn:Hb.
  { inv H. change (resp SW_BUSY) with (OResp [] SW_BUSY). apply mv_refuse. right; right; right; left.
    split; [reflexivity|]. split; [reflexivity|]. split; [exact Hp|]. split; [exact Hb|reflexivity]. }
  cbv zeta in H.
  assert (Er : forall s, handler_error s = true -> (st', outs) = handler_err (set_command st CMD_DA) s ->
               move E st (Apdu CLA INS_ADDRESS p1 p2 data r) st' outs).
  { intros s Hn K. inv K. apply (mv_error E st INS_ADDRESS p1 p2 data r s) with (left := []); auto. left; reflexivity. }
  destruct (parse_da (p2 =? 2) data) as [[[net p] token]|s] eqn:Ep.
  2: { apply (Er s); [|auto]. eapply nok_ne; [|exact Ep]. apply nok_da. }
  destruct (ergo_path_validate p V_ADDRESS_GE5) eqn:Ev; cbn [negb] in H.
  2: { apply (Er SW_BIP32_BAD_PATH); [reflexivity|auto]. }
  destruct (generate_public_key E p) as [[pk chain]|] eqn:Eg.
  2: { apply (Er SW_INTERNAL_CRYPTO_ERROR); [reflexivity|auto]. }
  destruct (ergo_address_from_pubkey (e_blake E) net pk) as [addr|] eqn:Ea.
  2: { inv H. change (resp SW_ADDRESS_GENERATION_FAILED) with (OResp [] SW_ADDRESS_GENERATION_FAILED). eapply mv_network; eauto. }
  rewrite Hsend in H.
  cbn [st_connected set_command] in H. destruct ((p1 =? 1) && is_known_application token (st_connected st)) eqn:Ek.
  { apply andb_true_iff in Ek as [K1 K2]. apply N.eqb_eq in K1. subst p1. inv H. eapply mv_da_now; eauto. }
  destruct (da_screens (p1 =? 1) token p addr) as [f|s] eqn:Es.
  2: { inv H. apply (mv_error E st INS_ADDRESS p1 p2 data r s) with (left := da_written (p1 =? 1) p); auto.
       - left. eapply nok_ne; [|exact Es]. apply nok_da_screens.
       - right; right. split; [reflexivity|]. exists net, p, token, pk, chain, addr. auto. }
  pose proof (da_screens_len _ _ _ _ _ Es) as Hl.
  assert (Hd : ui_display_screens f = Some (f ++ [SC_LOOP; SC_END])).
  { unfold ui_display_screens, MAX_NUMBER_OF_SCREENS, blen. destruct (8 <? N.of_nat (length f) + 2) eqn:K; [apply N.ltb_lt in K; lia|]. reflexivity. }
  rewrite Hd in H. inv H. eapply mv_da_ask; eauto.
  intros ->. exact Ek.
Qed.

Lemma handler_attest_move : forall E st data p1 p2 r st' outs, shape st -> params_ok INS_ATTEST p1 p2 = true ->
  handler_attest E st data p1 p2 r = (st', outs) -> move E st (Apdu CLA INS_ATTEST p1 p2 data r) st' outs.
Proof.
  intros E st data p1 p2 r st' outs Hs Hp H. unfold handler_attest in H.
  destruct (st_busy st) eqn:Hb.
  { inv H. change (resp SW_BUSY) with (OResp [] SW_BUSY). apply mv_refuse. right; right; right; left.
    split; [reflexivity|]. split; [reflexivity|]. split; [exact Hp|]. split; [exact Hb|reflexivity]. }
  assert (Hnz : p2 <> 0).
  { match type of Hp with params_ok ?i _ _ = _ => change (params_ok i p1 p2) with (negb (p1 =? 0) && negb (p2 =? 0)) in Hp end.
    apply andb_true_iff in Hp as [_ K]. intros ->. discriminate. }
  assert (Er : forall st0 s, handler_error s = true -> reset st0 = reset st -> (st', outs) = handler_err st0 s ->
               move E st (Apdu CLA INS_ATTEST p1 p2 data r) st' outs).
  { intros st0 s Hn K0 K. inv K. change (set_command st0 CMD_NONE) with (reset st0). rewrite K0. apply (mv_error E st INS_ATTEST p1 p2 data r s) with (left := []); auto. left; reflexivity. }
  rewrite match_sub in H.
  destruct (p1 =? 1) eqn:E1.
  - apply N.eqb_eq in E1. subst p1. destruct (negb (p2 =? 1) && negb (p2 =? 2)) eqn:E2.
    { unfold handler_err in H. injection H as <- <-. apply (mv_error E st INS_ATTEST 1 p2 data r SW_WRONG_P1P2) with (left := []); auto; [|left; reflexivity]. right. do 3 (split; [reflexivity|]). unfold one_or_two.
      destruct (p2 =? 1); [discriminate|]. destruct (p2 =? 2); [discriminate|reflexivity]. }
    assert (Ho : one_or_two p2 = true). { unfold one_or_two. destruct (p2 =? 1); [reflexivity|]. destruct (p2 =? 2); [reflexivity|discriminate]. }
    unfold attest_init in H. destruct (parse_attest_init (p2 =? 2) data) as [a|s] eqn:Ep.
    2: { apply (Er (set_command st CMD_ATTEST) s); auto. eapply nok_ne; [|exact Ep]. apply nok_attest. }
    destruct (box_init (ap_value a) (ap_tree_size a) (ap_height a) (ap_tokens_count a) (ap_regs_size a) [] ([] : list (token_id * N)))
      as [rs b] eqn:Ei.
    destruct (res_pass rs) eqn:Er1; cbn [negb] in H.
    2: { apply (Er (set_command st CMD_ATTEST) (sw_of_res rs)); auto. apply sw_of_res_ok. exact Er1. }
    assert (Hok : attest_init_ok a) by (unfold attest_init_ok; rewrite Ei; exact Er1).
    destruct (session_id_new_random 0 (r_ids r)) as [session|] eqn:Es.
    2: { inv H. apply mv_diverge. }
    cbv zeta in H. cbn [st_connected set_command] in H.
    assert (Hn : forall q, mk_attest q session (ap_tx_id a) (ap_index a) (bs_box b) (bs_hash b) [] (ap_token a) = attest_new q session a).
    { intros q. unfold attest_new. rewrite Ei. reflexivity. }
    destruct (is_known_application (st_connected st) (ap_token a)) eqn:Ek.
    { inv H. rewrite Hn. eapply mv_at_now; eauto. }
    unfold attest_screens in H. cbv zeta in H.
    set (f := if ap_token a =? 0 then add (SC_INFO (str "Confirm Attest Input")) [] else
              add (ui_application_id_screen (ap_token a)) (add (SC_INFO (str "Confirm Attest Input")) [])) in *.
    assert (Hf : (length f <= 4)%nat). { unfold f. destruct (ap_token a =? 0); vm_compute; lia. }
    destruct (fits f Hf) as (g & G1 & G2 & G3). rewrite G1, G3 in H. inv H. rewrite Hn.
    eapply mv_at_ask; eauto.
  - assert (Hin : forall k, (match st_cmd st with
        | CMD_ATTEST => match st_ctx st with
                        | X_ATTEST c => if p2 =? at_session c then k c else handler_err st SW_BAD_SESSION_ID
                        | _ => handler_err st SW_UB
                        end
        | _ => handler_err st SW_BAD_STATE end) = (st', outs) ->
        (exists c, st_cmd st = CMD_ATTEST /\ st_ctx st = X_ATTEST c /\ p2 = at_session c /\ k c = (st', outs)) \/
        move E st (Apdu CLA INS_ATTEST p1 p2 data r) st' outs).
    { intros k K. destruct (st_cmd st); try (right; apply (Er st SW_BAD_STATE); auto; reflexivity).
      destruct (st_ctx st) eqn:Ex; try (right; apply (Er st SW_UB); auto; reflexivity).
      destruct (p2 =? at_session c) eqn:E2; [|right; apply (Er st SW_BAD_SESSION_ID); auto; discriminate].
      apply N.eqb_eq in E2. left. exists c. auto. }
    assert (Hbox : forall c call, st_cmd st = CMD_ATTEST -> st_ctx st = X_ATTEST c -> p2 = at_session c ->
        attest_call p1 data = Some call -> attest_box_call E st c call = (st', outs) ->
        move E st (Apdu CLA INS_ATTEST p1 p2 data r) st' outs).
    { intros c call Hc Hx -> Hcall K. unfold attest_box_call in K.
      destruct (at_state c) eqn:Ea; try (apply (Er st SW_BAD_STATE); auto; reflexivity).
      destruct (call (attest_bs c)) as [rs x] eqn:Ec.
      destruct (res_pass rs) eqn:Erp.
      2: { apply (Er st (sw_of_res rs)); auto; [apply sw_of_res_ok; exact Erp|]. destruct rs; cbn in Erp; try discriminate; symmetry; exact K. }
      destruct rs; try discriminate Erp.
      - unfold check_box_finished in K. cbn [at_box attest_put] in K.
        destruct (bx_state (bs_box x)) eqn:Eb;
          try (inv K; change (resp SW_OK) with (OResp [] SW_OK); eapply mv_at_more; eauto; right; split; [exact Ec|congruence]).
        replace (attest_bs (attest_put c x)) with x in K by (destruct x; reflexivity).
        cbn [at_id at_index at_session at_token at_tokens attest_put] in K.
        destruct (box_id_hash (e_blake E) x (at_id c) (at_index c)) as [[rh y] id] eqn:Eh.
        destruct rh; try (apply (Er st (sw_of_res R_BAD_STATE)); auto; [reflexivity|]; fail);
          try (match type of K with handler_err _ (sw_of_res ?q) = _ => apply (Er st (sw_of_res q)); [reflexivity|reflexivity|symmetry; exact K] end).
        + inv K. eapply mv_at_done; eauto.
        + inv K. apply (Er st (sw_of_res R_MORE_DATA)); [|reflexivity|reflexivity].
          exfalso. unfold box_id_hash in Eh. repeat match type of Eh with context [if ?b then _ else _] => destruct b | context [match ?b with _ => _ end] => destruct b end; discriminate.
      - inv K. change (resp SW_OK) with (OResp [] SW_OK). eapply mv_at_more; eauto. }
    destruct (p1 =? 2) eqn:E2; [apply N.eqb_eq in E2; subst p1|].
    { apply Hin in H as [(c & H1 & H2 & H3 & H4)|H]; [|exact H]. eapply Hbox; eauto. reflexivity. }
    destruct (p1 =? 3) eqn:E3; [apply N.eqb_eq in E3; subst p1|].
    { apply Hin in H as [(c & H1 & H2 & H3 & H4)|H]; [|exact H]. eapply Hbox; eauto. reflexivity. }
    destruct (p1 =? 4) eqn:E4; [apply N.eqb_eq in E4; subst p1|].
    { apply Hin in H as [(c & H1 & H2 & H3 & H4)|H]; [|exact H]. eapply Hbox; eauto. reflexivity. }
    destruct (p1 =? 5) eqn:E5; [apply N.eqb_eq in E5; subst p1|].
    2: { apply (Er st SW_WRONG_SUBCOMMAND); reflexivity || auto. }
    apply Hin in H as [(c & H1 & H2 & -> & H4)|H]; [|exact H].
    unfold attest_get_frame in H4. destruct (at_state c) eqn:Ea; try (apply (Er st SW_BAD_STATE); auto; reflexivity).
    destruct (bind (rd (read_u8 data)) (fun '(i, l) => finished l i)) as [i|s] eqn:Eb.
    2: { apply (Er st s); auto. eapply nok_ne; [|exact Eb]. apply nok_bind; [apply nok_rd|]. intros [i l]. apply nok_finished. }
    assert (Hd : data = [i]).
    { destruct data as [|x data]; [discriminate|]. cbn in Eb. destruct data; [|discriminate]. cbn in Eb. congruence. }
    destruct (get_frames_count (blen (at_tokens c)) <=? i) eqn:El.
    { apply (Er st SW_BAD_FRAME_INDEX); reflexivity || auto. }
    apply N.leb_gt in El. inv H4. eapply mv_at_frame; eauto.
Qed.

Lemma handler_sign_move : forall E st data p1 p2 r st' outs, shape st -> params_ok INS_SIGN p1 p2 = true ->
  handler_sign E st data p1 p2 r = (st', outs) -> move E st (Apdu CLA INS_SIGN p1 p2 data r) st' outs.
Proof.
  intros E st data p1 p2 r st' outs Hs Hp H. unfold handler_sign in H.
  destruct (st_busy st) eqn:Hb.
  { inv H. change (resp SW_BUSY) with (OResp [] SW_BUSY). apply mv_refuse. right; right; right; left.
    split; [reflexivity|]. split; [reflexivity|]. split; [exact Hp|]. split; [exact Hb|reflexivity]. }
  assert (Hnz : p2 <> 0).
  { match type of Hp with params_ok ?i _ _ = _ => change (params_ok i p1 p2) with (negb (p1 =? 0) && negb (p2 =? 0)) in Hp end.
    apply andb_true_iff in Hp as [_ K]. intros ->. discriminate. }
  assert (Er : forall st0 s, handler_error s = true -> reset st0 = reset st -> (st', outs) = handler_err st0 s ->
               move E st (Apdu CLA INS_SIGN p1 p2 data r) st' outs).
  { intros st0 s Hn K0 K. inv K. change (set_command st0 CMD_NONE) with (reset st0). rewrite K0. apply (mv_error E st INS_SIGN p1 p2 data r s) with (left := []); auto. left; reflexivity. }
  destruct (p1 =? 1) eqn:E1.
  - apply N.eqb_eq in E1. subst p1. destruct (negb (p2 =? 1) && negb (p2 =? 2)) eqn:E2.
    { inv H. change (resp SW_WRONG_P1P2) with (OResp [] SW_WRONG_P1P2). apply mv_refuse. right; right; right; right.
      split; [reflexivity|]. split; [reflexivity|]. split; [reflexivity|]. split; [|auto].
      unfold one_or_two. destruct (p2 =? 1); [discriminate|]. destruct (p2 =? 2); [discriminate|reflexivity]. }
    assert (Ho : one_or_two p2 = true). { unfold one_or_two. destruct (p2 =? 1); [reflexivity|]. destruct (p2 =? 2); [reflexivity|discriminate]. }
    unfold sign_init in H. destruct (parse_sign_init (p2 =? 2) data) as [[[net p] token]|s] eqn:Ep.
    2: { apply (Er (set_command st CMD_SIGN) s); auto. eapply nok_ne; [|exact Ep]. apply nok_sign. }
    destruct (p2pk_init E (r_nonces r) p net) as [op|s] eqn:Ei.
    2: { apply (Er (set_command st CMD_SIGN) s); auto. eapply nok_ne; [|exact Ei]. apply nok_op_init. }
    destruct (session_id_new_random 0 (r_ids r)) as [session|] eqn:Es.
    2: { inv H. apply mv_diverge. }
    cbn [st_connected set_command] in H.
    destruct (p2pk_show_token_and_path op token (is_known_application (st_connected st) token)) as [[f op']|s] eqn:Ef.
    2: { apply (Er (set_command st CMD_SIGN) s); auto. eapply nok_ne; [|exact Ef]. apply nok_token_and_path. }
    inv H. eapply mv_sg_ask; eauto.
  - destruct (is_sign_subcommand p1) eqn:Esub.
    2: { apply (Er st SW_WRONG_SUBCOMMAND); reflexivity || auto. }
    destruct (st_cmd st) eqn:Ecmd; try (apply (Er st SW_BAD_STATE); auto; reflexivity).
    destruct (st_ctx st) as [| | | |g] eqn:Ex; try (apply (Er st SW_UB); auto; reflexivity).
    destruct (p2 =? sg_session g) eqn:E2; [|apply (Er st SW_BAD_SESSION_ID); auto; discriminate].
    apply N.eqb_eq in E2. subst p2. apply N.eqb_neq in E1.
    unfold sign_command in H. destruct (sg_state g) eqn:Eg; [apply (Er st SW_BAD_STATE); auto; discriminate|].
    destruct (sign_exec E (st_key st) (sg_op g) p1 data) as [[x a]|] eqn:Ee.
    2: { apply (Er st SW_WRONG_SUBCOMMAND); reflexivity || auto. }
    destruct x as [op|s].
    2: { apply (Er st s); auto. eapply nok_ne; [|reflexivity]. eapply nok_exec; exact Ee. }
    destruct a.
    + inv H. change (resp SW_OK) with (OResp [] SW_OK). rewrite <- Eg. eapply mv_sg_more; eauto.
    + unfold show_output_screen_if_needed in H. cbv zeta in H. destruct (p2pk_should_show_output op) as [[|]|] eqn:Esh.
      * destruct (p2pk_show_output_confirm_screen op) as [[[f d] op']|s] eqn:Eo.
        2: { apply (Er st s); auto. eapply nok_ne; [|exact Eo]. apply nok_output_screen. }
        inv H. eapply mv_sg_output; eauto.
      * inv H. change (resp SW_OK) with (OResp [] SW_OK). eapply mv_sg_more; eauto.
      * apply (Er st SW_UB); reflexivity || auto.
    + apply exec_confirm in Ee as [-> Ee]. inv Ee.
      destruct (p2pk_show_confirm_screen (sg_op g)) as [[[f d] op']|s] eqn:Eo.
      2: { apply (Er st s); auto. eapply nok_ne; [|exact Eo]. apply nok_confirm_screen. }
      rewrite <- Eg in H. inv H. eapply mv_sg_confirm; eauto.
Qed.

Lemma step_move : forall E st e st' outs, shape st -> step E st e = (st', outs) -> move E st e st' outs.
Proof.
  intros E st e st' outs Hs H. destruct e as [cla ins p1 p2 data r| | | | | | | |]; cbn [step] in H.
  - unfold apdu_dispatcher in H. destruct (cla =? 0xE0) eqn:Ecla; cbn [negb] in H.
    2: { inv H. change (resp SW_CLA_NOT_SUPPORTED) with (OResp [] SW_CLA_NOT_SUPPORTED). apply mv_refuse. left.
         split; [apply N.eqb_neq; exact Ecla|reflexivity]. }
    apply N.eqb_eq in Ecla. subst cla. rewrite match_ins in H.
    assert (Rp : (st', outs) = (st, [resp SW_WRONG_P1P2]) -> known_ins ins = true -> params_ok ins p1 p2 = false ->
                 move E st (Apdu 0xE0 ins p1 p2 data r) st' outs).
    { intros K K1 K2. inv K. change (resp SW_WRONG_P1P2) with (OResp [] SW_WRONG_P1P2). apply mv_refuse.
      right; right; left. do 3 (split; [auto|]). reflexivity. }
    destruct (ins =? 1) eqn:I1; [apply N.eqb_eq in I1; subst ins|].
    { destruct (negb (p1 =? 0) || negb (p2 =? 0)) eqn:P.
      - apply Rp; [auto|reflexivity|]. change (params_ok 1 p1 p2) with ((p1 =? 0) && (p2 =? 0)).
        rewrite <- negb_andb in P. apply negb_true_iff in P. exact P.
      - apply orb_false_iff in P as [P1 P2]. apply negb_false_iff, N.eqb_eq in P1, P2. subst. inv H. apply mv_version. }
    destruct (ins =? 2) eqn:I2; [apply N.eqb_eq in I2; subst ins|].
    { destruct (negb (p1 =? 0) || negb (p2 =? 0)) eqn:P.
      - apply Rp; [auto|reflexivity|]. change (params_ok 2 p1 p2) with ((p1 =? 0) && (p2 =? 0)).
        rewrite <- negb_andb in P. apply negb_true_iff in P. exact P.
      - apply orb_false_iff in P as [P1 P2]. apply negb_false_iff, N.eqb_eq in P1, P2. subst. inv H. apply mv_name. }
    assert (Q : forall p, ((p =? 0) || (2 <? p)) = negb (one_or_two p)).
    { intros p. unfold one_or_two. destruct (p =? 0) eqn:A; [apply N.eqb_eq in A; subst; reflexivity|].
      destruct (2 <? p) eqn:B.
      - apply N.ltb_lt in B. destruct (p =? 1) eqn:C; [apply N.eqb_eq in C; lia|]. destruct (p =? 2) eqn:D; [apply N.eqb_eq in D; lia|]. reflexivity.
      - apply N.ltb_ge in B. apply N.eqb_neq in A. destruct (p =? 1) eqn:C; [reflexivity|]. destruct (p =? 2) eqn:D; [reflexivity|].
        apply N.eqb_neq in C, D. lia. }
    destruct (ins =? 0x10) eqn:I3; [apply N.eqb_eq in I3; subst ins|].
    { rewrite Q in H. destruct (negb (one_or_two p1) || (0 <? p2)) eqn:P.
      - apply Rp; [auto|reflexivity|]. change (params_ok 0x10 p1 p2) with (one_or_two p1 && (p2 =? 0)).
        destruct (one_or_two p1); [|reflexivity]. apply N.ltb_lt in P. apply N.eqb_neq. lia.
      - apply orb_false_iff in P as [P1 P2]. apply negb_false_iff in P1. apply N.ltb_ge in P2. assert (p2 = 0) by lia. subst p2.
        apply handler_epk_move; auto. change (params_ok INS_KEY p1 0) with (one_or_two p1 && true). rewrite P1. reflexivity. }
    destruct (ins =? 0x11) eqn:I4; [apply N.eqb_eq in I4; subst ins|].
    { rewrite <- orb_assoc, !Q in H. destruct (negb (one_or_two p1) || negb (one_or_two p2)) eqn:P.
      - apply Rp; [auto|reflexivity|]. change (params_ok 0x11 p1 p2) with (one_or_two p1 && one_or_two p2).
        rewrite <- negb_andb in P. apply negb_true_iff in P. exact P.
      - apply orb_false_iff in P as [P1 P2]. apply negb_false_iff in P1, P2.
        apply handler_da_move; auto. change (params_ok INS_ADDRESS p1 p2) with (one_or_two p1 && one_or_two p2). rewrite P1, P2. reflexivity. }
    destruct (ins =? 0x20) eqn:I5; [apply N.eqb_eq in I5; subst ins|].
    { destruct ((p1 =? 0) || (p2 =? 0)) eqn:P.
      - apply Rp; [auto|reflexivity|]. change (params_ok 0x20 p1 p2) with (negb (p1 =? 0) && negb (p2 =? 0)).
        rewrite <- negb_orb, P. reflexivity.
      - apply handler_attest_move; auto. change (params_ok INS_ATTEST p1 p2) with (negb (p1 =? 0) && negb (p2 =? 0)).
        rewrite <- negb_orb, P. reflexivity. }
    destruct (ins =? 0x21) eqn:I6; [apply N.eqb_eq in I6; subst ins|].
    { destruct ((p1 =? 0) || (p2 =? 0)) eqn:P.
      - apply Rp; [auto|reflexivity|]. change (params_ok 0x21 p1 p2) with (negb (p1 =? 0) && negb (p2 =? 0)).
        rewrite <- negb_orb, P. reflexivity.
      - apply handler_sign_move; auto. change (params_ok INS_SIGN p1 p2) with (negb (p1 =? 0) && negb (p2 =? 0)).
        rewrite <- negb_orb, P. reflexivity. }
    inv H. change (resp SW_INS_NOT_SUPPORTED) with (OResp [] SW_INS_NOT_SUPPORTED). apply mv_refuse. right; left.
    split; [reflexivity|]. split; [|reflexivity]. unfold known_ins. cbn [existsb].
    change INS_VERSION with 1; change INS_NAME with 2; change INS_KEY with 0x10; change INS_ADDRESS with 0x11;
    change INS_ATTEST with 0x20; change INS_SIGN with 0x21. rewrite I1, I2, I3, I4, I5, I6. reflexivity.
  - inv H. change (resp SW_WRONG_APDU_DATA_LENGTH) with (OResp [] SW_WRONG_APDU_DATA_LENGTH). apply mv_refuse. reflexivity.
  - (* approve *)
    unfold ui_action in H. unfold shape in Hs. destruct (st_ctx st) as [|c|c|c|g] eqn:Ex.
    + destruct Hs as (_ & Hm & _). destruct (st_ui st); try discriminate; inv H; apply mv_idle; discriminate.
    + destruct Hs as (_ & Hu & _). rewrite Hu in H. unfold ui_action_epk in H. inv H. apply (mv_epk_act E st c true); auto.
    + destruct Hs as (_ & Hu & _). rewrite Hu in H. unfold ui_action_da in H.
      assert (K : (ui_menu_main (reset (set_connected st (da_token c))), [OResp (if da_send c then da_address c else []) SW_OK]) = (st', outs)).
      { rewrite <- H. destruct (da_send c); reflexivity. }
      inv K. apply (mv_da_act E st c true); auto.
    + destruct Hs as (_ & Hs). destruct (at_state c).
      * destruct Hs as [_ Hu]. rewrite Hu in H. unfold ui_action_attest in H. inv H. apply (mv_at_act E st c true); auto.
      * destruct Hs as [_ Hm]. destruct (st_ui st); try discriminate; inv H; apply mv_idle; discriminate.
      * destruct Hs as [_ Hm]. destruct (st_ui st); try discriminate; inv H; apply mv_idle; discriminate.
    + destruct Hs as (_ & Hs). destruct (sg_state g) eqn:Eg.
      * destruct Hs as (_ & Hu & token & Eu). rewrite Hu in H. unfold ui_action_stx_approve in H. rewrite Eu in H. inv H.
        exact (mv_sg_approve E st UiApprove g _ Hu Ex (or_introl eq_refl) Eu).
      * destruct Hs as [[_ Hm]|[(_ & Hu & t & o & Eu & Eo)|[_ Hu]]].
        -- destruct (st_ui st); try discriminate; inv H; apply mv_idle; discriminate.
        -- rewrite Hu in H. unfold ui_action_stx_output in H.
           rewrite Eu, Eo in H.
           inv H. exact (mv_sg_output_ok E st g t o Hu Ex Eu Eo).
        -- rewrite Hu in H. unfold ui_action_stx_tx in H. destruct (p2pk_send_response E (sg_op g)) as [s|s] eqn:Es; inv H.
           ++ exact (mv_sg_tx_ok E st g s Hu Ex Es).
           ++ refine (mv_sg_tx_fail E st g s Hu Ex Es _). eapply nok_ne; [|exact Es]. apply nok_send.
  - (* reject *)
    unfold ui_action in H. unfold shape in Hs. destruct (st_ctx st) as [|c|c|c|g] eqn:Ex.
    + destruct Hs as (_ & Hm & _). destruct (st_ui st); try discriminate; inv H; apply mv_idle; discriminate.
    + destruct Hs as (_ & Hu & _). rewrite Hu in H. unfold ui_action_epk in H. inv H. apply (mv_epk_act E st c false); auto.
    + destruct Hs as (_ & Hu & _). rewrite Hu in H. unfold ui_action_da in H. inv H. apply (mv_da_act E st c false); auto.
    + destruct Hs as (_ & Hs). destruct (at_state c).
      * destruct Hs as [_ Hu]. rewrite Hu in H. unfold ui_action_attest in H. inv H. apply (mv_at_act E st c false); auto.
      * destruct Hs as [_ Hm]. destruct (st_ui st); try discriminate; inv H; apply mv_idle; discriminate.
      * destruct Hs as [_ Hm]. destruct (st_ui st); try discriminate; inv H; apply mv_idle; discriminate.
    + destruct Hs as (_ & Hs). destruct (sg_state g) eqn:Eg.
      * destruct Hs as (_ & Hu & _). rewrite Hu in H. unfold ui_action_stx_approve in H. inv H.
        exact (mv_sg_reject E st g (or_intror Hu) Ex).
      * destruct Hs as [[_ Hm]|[(_ & Hu & t & o & Eu & Eo)|[_ Hu]]].
        -- destruct (st_ui st); try discriminate; inv H; apply mv_idle; discriminate.
        -- rewrite Hu in H. unfold ui_action_stx_output in H.
           rewrite Eu, Eo in H.
           inv H. refine (mv_sg_reject E st g (or_introl _) Ex). rewrite Hu. reflexivity.
        -- rewrite Hu in H. unfold ui_action_stx_tx in H. inv H.
           refine (mv_sg_reject E st g (or_introl _) Ex). rewrite Hu. reflexivity.
  - (* path screen *)
    unfold ui_path_both in H. destruct (st_ui st) eqn:Eui; try (inv H; apply mv_idle; discriminate).
    unfold shape in Hs. destruct (st_ctx st) as [|c|c|c|g] eqn:Ex.
    + destruct Hs as (_ & Hm & _). rewrite Eui in Hm. discriminate.
    + destruct Hs as (_ & Hm & _). congruence.
    + destruct Hs as (_ & Hm & _). congruence.
    + destruct Hs as (_ & Hs). rewrite Eui in Hs. destruct (at_state c); destruct Hs; discriminate.
    + destruct Hs as (_ & Hs). destruct (sg_state g) eqn:Eg.
      * destruct Hs as (_ & _ & token & Eu). unfold ui_action_stx_approve in H. rewrite Eu in H. inv H.
        exact (mv_sg_approve E st UiPathBoth g _ Eui Ex (or_intror eq_refl) Eu).
      * destruct Hs as [[_ Hm]|[(_ & Hu & _)|[_ Hu]]]; [rewrite Eui in Hm; discriminate|congruence|congruence].
  - (* upper *)
    destruct (has_pages (st_ui st)) eqn:Hp; [|inv H; apply mv_idle; discriminate].
    unfold display_dynamic in H. destruct (ui_dynamic_step_left (st_dyn st)) as [d [i|]] eqn:Ed; cbn [fst snd] in H.
    2: { inv H. eapply mv_page_out; eauto. }
    cbn [set_dyn st_ui st_ctx] in H. destruct (page_of E (st_ui st) (st_ctx st) i) as [[ti bo]|s] eqn:Epg.
    + inv H. eapply mv_page; eauto.
    + pose proof (nok_ne _ _ _ (nok_page E (st_ui st) (st_ctx st) i) Epg) as Hn.
      destruct (sw_eqb s SW_UB) eqn:Eu.
      * assert (s = SW_UB) by (destruct s; try reflexivity; discriminate). subst s. inv H. eapply mv_page_ub; eauto.
      * assert (s <> SW_UB) by (intros ->; discriminate).
        assert (K : (ui_menu_main (reset st), [OResp [] s]) = (st', outs)).
        { rewrite <- H. destruct s; try reflexivity. congruence. }
        inv K. eapply mv_page_fail; eauto.
  - destruct (has_pages (st_ui st)) eqn:Hp; [|inv H; apply mv_idle; discriminate].
    unfold display_dynamic in H. destruct (ui_dynamic_step_right (st_dyn st)) as [d [i|]] eqn:Ed; cbn [fst snd] in H.
    2: { inv H. eapply mv_page_out; eauto. }
    cbn [set_dyn st_ui st_ctx] in H. destruct (page_of E (st_ui st) (st_ctx st) i) as [[ti bo]|s] eqn:Epg.
    + inv H. eapply mv_page; eauto.
    + pose proof (nok_ne _ _ _ (nok_page E (st_ui st) (st_ctx st) i) Epg) as Hn.
      destruct (sw_eqb s SW_UB) eqn:Eu.
      * assert (s = SW_UB) by (destruct s; try reflexivity; discriminate). subst s. inv H. eapply mv_page_ub; eauto.
      * assert (s <> SW_UB) by (intros ->; discriminate).
        assert (K : (ui_menu_main (reset st), [OResp [] s]) = (st', outs)).
        { rewrite <- H. destruct s; try reflexivity. congruence. }
        inv K. eapply mv_page_fail; eauto.
  - destruct (st_ui st) eqn:Eui; inv H; try (apply mv_idle; discriminate). apply mv_about. exact Eui.
  - destruct (st_ui st) eqn:Eui; inv H; try (apply mv_idle; discriminate). apply mv_back. exact Eui.
Qed.

(** ** The shape is kept *)

Lemma shape_init : forall key, shape (init key).
Proof. intros key. cbn. auto. Qed.

Ltac shp := unfold shape in *; cbn [st_ctx st_busy st_ui st_cmd set_ctx overwrite set_command set_connected set_dyn ui_menu_main ui_menu_about show reset] in *.
Lemma shape_idle : forall st, shape st -> st_busy st = false -> menu_ui (st_ui st) = true.
Proof.
  intros st H Hb. unfold shape in H. destruct (st_ctx st) as [|c|c|c|g].
  - apply H.
  - destruct H as (K & _). congruence.
  - destruct H as (K & _). congruence.
  - destruct H as (_ & H). destruct (at_state c); destruct H; congruence.
  - destruct H as (_ & H). destruct (sg_state g); [destruct H; congruence|].
    destruct H as [[_ H]|[[K _]|[K _]]]; [exact H|congruence|congruence].
Qed.
(** The flow on the screen fits the context. *)
Lemma shape_show_token : forall c t k f c', p2pk_show_token_and_path c t k = Ok (f, c') -> c' = op_set_union c (OU_APPROVE t).
Proof.
  intros c t k f c' H. unfold p2pk_show_token_and_path in H. destruct (ui_bip32_path_screen _ _ _ _); [|discriminate].
  destruct (add_operation_approve_screens _ _ _); [|discriminate]. cbn [bind] in H. destruct (display _); [|discriminate]. cbn [bind] in H. congruence.
Qed.
Lemma shape_show_output : forall c f d c', p2pk_show_output_confirm_screen c = Ok (f, d, c') ->
  exists t o, op_union_of c = OU_TX t /\ tx_output t = Some o /\ c' = op_set_union c (OU_TX (mk_tx (tx_full t) (Some o) [])).
Proof.
  intros c f d c' H. unfold p2pk_show_output_confirm_screen in H.
  assert (G : match op_union_of c with
    | OU_TX t => match tx_output t with
          | None => Fail SW_UB
          | Some o => bind (add_output_screens [] o) (fun fd => bind (display (fst fd)) (fun f =>
              Ok (f, snd fd, op_set_union c (OU_TX (mk_tx (tx_full t) (Some o) [])))))
          end
    | _ => Fail SW_UB end = Ok (f, d, c')) by (destruct (op_state_of c); try discriminate; exact H).
  destruct (op_union_of c) as [|t|]; try discriminate. destruct (tx_output t) as [o|] eqn:Eo; [|discriminate].
  exists t, o. do 2 (split; [auto|]). destruct (add_output_screens [] o) as [fd|]; [|discriminate]. cbn [bind] in G.
  destruct (display (fst fd)) as [g|]; [|discriminate]. cbn [bind] in G. congruence.
Qed.

Lemma shape_move : forall E st e st' outs, shape st -> move E st e st' outs -> ~ In ODiverge outs -> shape st'.
Proof.
  intros E st e st' outs Hs M Hd. pose proof (shape_idle st Hs) as Hi.
  destruct M; try exact Hs; try (exfalso; apply Hd; left; reflexivity); try (shp; auto; fail).
  - shp. destruct (st_ctx st) as [|x|x|x|x]; rewrite H in Hs; cbn in *.
    + intuition congruence.
    + intuition congruence.
    + intuition congruence.
    + destruct (at_state x); intuition congruence.
    + destruct (sg_state x); intuition congruence.
  - shp. destruct (st_ctx st) as [|x|x|x|x]; rewrite H in Hs; cbn in *.
    + intuition congruence.
    + intuition congruence.
    + intuition congruence.
    + destruct (at_state x); intuition congruence.
    + destruct (sg_state x); intuition congruence.
  - shp. cbn. auto.
  - shp. cbn. auto.
  - shp. unfold attest_put. cbn. rewrite H2. split; [assumption|]. split; auto.
  - shp. cbn. auto.
  - shp. destruct b; cbn; [|auto]. rewrite H0 in Hs. split; [apply Hs|]. auto.
  - shp. cbn. apply shape_show_token in H4. subst op'. split; [reflexivity|]. split; [reflexivity|]. split; [reflexivity|]. exists token. reflexivity.
  - shp. unfold sg_put. cbn. rewrite H2. split; [assumption|]. left. auto.
  - shp. unfold sg_put. cbn. rewrite H2. split; [assumption|]. right. left. split; [reflexivity|]. split; [reflexivity|].
    apply shape_show_output in H7 as (t & o & H8 & H9 & ->). cbn. eexists _, _. split; reflexivity.
  - shp. unfold sg_put. cbn. rewrite H2. split; [assumption|]. right. auto.
  - shp. rewrite H0 in Hs. split; [apply Hs|]. left. auto.
  - shp. rewrite H0 in Hs. unfold sg_put. cbn. split; [apply Hs|]. destruct Hs as [_ Hs].
    destruct (sg_state g); [|left; auto]. destruct Hs as (_ & Hs & _). congruence.
Qed.

Lemma history_shape : forall E key tr st, history E key tr st -> shape st.
Proof.
  intros E key tr st H. induction H as [|tr st e outs st' H IH He Hstep Hd].
  - apply shape_init.
  - eapply shape_move; eauto. eapply step_move; eauto.
Qed.
(** Induction over histories, move by move. *)
Lemma history_ind_move : forall E key (P : list obs -> state -> Prop),
  P [] (init key) ->
  (forall tr st e outs st', history E key tr st -> shape st -> P tr st -> event_ok e -> move E st e st' outs ->
     ~ In ODiverge outs -> history E key (tr ++ [(e, outs)]) st' -> P (tr ++ [(e, outs)]) st') ->
  forall tr st, history E key tr st -> P tr st.
Proof.
  intros E key P H0 HS tr st H. induction H as [|tr st e outs st' H IH He Hstep Hd]; [exact H0|].
  pose proof (history_shape _ _ _ _ H) as Hs. eapply HS; eauto.
  - eapply step_move; eauto.
  - econstructor; eauto.
Qed.
Lemma history_last : forall E key tr e outs st', history E key (tr ++ [(e, outs)]) st' ->
  exists st, history E key tr st /\ shape st /\ event_ok e /\ step E st e = (st', outs) /\ move E st e st' outs /\ ~ In ODiverge outs.
Proof.
  intros E key tr e outs st' H. inversion H as [K|tr0 st e0 outs0 st0 H1 H2 H3 H4 K]; subst.
  - exfalso. eapply app_cons_not_nil. exact K.
  - apply app_inj_tail in K as [-> K]. inv K. exists st. pose proof (history_shape _ _ _ _ H1).
    split; [assumption|]. split; [assumption|]. split; [assumption|]. split; [assumption|]. split; [eapply step_move; eauto|assumption].
Qed.
