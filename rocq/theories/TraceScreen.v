(** The screen as read off the history: what is displayed, who asked for it and which
    application token is remembered. *)
From Coq Require Import String.
From Verif Require Import Lib Env Bip32 Base58 Address ErgoTree Schnorr Format TxTable TxBox TxFull Amounts OutputInfo UiFlow P2pkOp App
  SpecTrace SpecTx SpecApdu SpecScreen Moves SignInput SignRest TraceSign TraceAttest.

#[local] Arguments N.eqb : simpl never.
#[local] Arguments N.ltb : simpl never.
#[local] Arguments N.leb : simpl never.
#[local] Arguments N.sub : simpl never.
#[local] Arguments blen : simpl never.
#[local] Arguments num : simpl never.
#[local] Arguments slice : simpl never.

(** ** Folds, one observation at a time *)

Lemma on_screen_snoc : forall tr o, on_screen (tr ++ [o]) = question_after (on_screen tr) o.
Proof. intros. unfold on_screen. rewrite fold_left_app. reflexivity. Qed.
Lemma remember_fst : forall tr q n, fst (fold_left remember tr (q, n)) = fold_left question_after tr q.
Proof.
  induction tr as [|o tr IH]; intros q n; [reflexivity|]. cbn [fold_left]. unfold remember at 2. cbn [fst snd]. apply IH.
Qed.
Lemma remembered_snoc : forall tr o, remembered (tr ++ [o]) =
  match on_screen tr with
  | Some (e, k, _, _) => if asks_for_token k && is_approval o then token_of e else remembered tr
  | None => remembered tr
  end.
Proof.
  intros tr o. unfold remembered. rewrite fold_left_app. cbn [fold_left]. unfold remember at 1. cbn [snd].
  rewrite remember_fst. reflexivity.
Qed.

(** ** Fields of the requests *)

Lemma token_spec : forall b a l t, bind (rd_token b l) (fun '(t, l') => finished l' t) = Ok t ->
  t = (if b then num (length (a ++ l) - 4) 4 (a ++ l) else 0) /\ length l = (if b then 4 else 0)%nat.
Proof.
  intros b a l t H. apply bind_ok in H as ([t' l'] & H1 & H2). unfold finished in H2. destruct l'; [|discriminate]. injection H2 as ->.
  unfold rd_token, rd in H1. destruct b.
  - destruct (read_u32 l) as [[x y]|] eqn:E; [|discriminate]. injection H1 as -> ->. apply read_be_spec in E as (z & -> & L & ->).
    rewrite app_nil_r, app_length, L. split; [|reflexivity]. rewrite num_skip by lia.
    replace (length a + 4 - 4 - length a)%nat with 0%nat by lia. rewrite num_all by assumption. reflexivity.
  - injection H1 as <- ->. split; reflexivity.
Qed.
Lemma path_spec : forall n l p rest, read_bip32_path n l = Some (p, rest) ->
  p = path_at 0 (n :: l) /\ length p = N.to_nat n /\ 0 < n /\ n <= 10 /\ exists a, l = a ++ rest /\ length a = (4 * length p)%nat.
Proof.
  intros n l p rest H. pose proof (read_path_spec (n :: l) p rest) as K. unfold stx_read_bip32_path in K. rewrite read_u8_cons, H in K.
  specialize (K eq_refl). split; [exact K|]. unfold read_bip32_path in H. destruct ((n =? 0) || (MAX_BIP32_PATH <? n)) eqn:Z; [discriminate|].
  apply orb_false_iff in Z as [Z1 Z2]. apply N.eqb_neq in Z1. apply N.ltb_ge in Z2. unfold MAX_BIP32_PATH in Z2.
  apply read_u32s_spec in H as (Hp & L & ->). assert (Lp : length p = N.to_nat n) by (rewrite Hp, map_length, seq_length; reflexivity).
  split; [exact Lp|]. split; [lia|]. split; [exact Z2|]. exists (firstn (4 * N.to_nat n) l). rewrite firstn_skipn. split; [reflexivity|].
  rewrite firstn_length. lia.
Qed.
Lemma bind_token : forall A b l (f : N -> A) x, bind (rd_token b l) (fun '(t, l') => finished l' (f t)) = Ok x ->
  exists t, x = f t /\ bind (rd_token b l) (fun '(t, l') => finished l' t) = Ok t.
Proof.
  intros A b l f x H. apply bind_ok in H as ([t l'] & H1 & H2). unfold finished in H2. destruct l'; [|discriminate]. injection H2 as <-.
  exists t. split; [reflexivity|]. rewrite H1. reflexivity.
Qed.
Lemma parse_epk_spec : forall b data p t, parse_epk b data = Ok (p, t) ->
  p = key_path data /\ t = (if b then num (length data - 4) 4 data else 0) /\
  length data = (1 + 4 * length p + if b then 4 else 0)%nat /\ hd 0 data = blen p /\ blen p <= 10.
Proof.
  intros b data p t H. unfold parse_epk in H. destruct data as [|n l]; [discriminate|]. rewrite read_u8_cons in H. cbn [rd bind] in H.
  apply bind_ok in H as ([q l1] & H1 & H). unfold rd in H1. destruct (read_bip32_path n l) as [[x y]|] eqn:E; [|discriminate]. injection H1 as -> ->.
  apply path_spec in E as (Hp & Lp & _ & Ln & a & -> & La).
  apply bind_token in H as (t' & Ht & H). injection Ht as -> ->. apply (token_spec b (n :: a)) in H as [Ht Hl]. split; [exact Hp|]. split; [exact Ht|].
  split; [|cbn [hd]; unfold blen; lia]. cbn [length]. rewrite app_length, La, Hl. reflexivity.
Qed.
Lemma parse_da_spec : forall b data net p t, parse_da b data = Ok (net, p, t) ->
  net = address_network data /\ p = address_path data /\ t = (if b then num (length data - 4) 4 data else 0) /\
  length data = (2 + 4 * length p + if b then 4 else 0)%nat /\ blen p <= 10.
Proof.
  intros b data net p t H. unfold parse_da in H. destruct data as [|x [|n l]]; [discriminate|discriminate|].
  rewrite read_u8_cons in H. cbn [rd bind] in H. rewrite read_u8_cons in H. cbn [rd bind] in H.
  apply bind_ok in H as ([q l1] & H1 & H). unfold rd in H1. destruct (read_bip32_path n l) as [[u v]|] eqn:E; [|discriminate]. injection H1 as -> ->.
  apply path_spec in E as (Hp & Lp & _ & Ln & a & -> & La).
  apply bind_token in H as (t' & Ht & H). injection Ht as -> -> ->. apply (token_spec b (x :: n :: a)) in H as [Ht Hl].
  split. { unfold address_network. change (x :: n :: a ++ l1) with ([x] ++ (n :: a ++ l1)). rewrite num_head by reflexivity. unfold be_value. cbn. lia. }
  split. { rewrite Hp. unfold address_path. symmetry. apply (path_at_shift [x] (n :: a ++ l1) 0). }
  split; [exact Ht|]. split; [|unfold blen; lia]. cbn [length]. rewrite app_length, La, Hl. reflexivity.
Qed.
Lemma parse_sign_token : forall b data net p t, parse_sign_init b data = Ok (net, p, t) ->
  t = (if b then num (length data - 4) 4 data else 0) /\ length data = (2 + 4 * length p + if b then 4 else 0)%nat /\ blen p <= 10.
Proof.
  intros b data net p t H. unfold parse_sign_init in H. destruct data as [|x [|n l]]; [discriminate|discriminate|].
  rewrite read_u8_cons in H. cbn [rd bind] in H. apply bind_ok in H as ([q l1] & H1 & H).
  unfold stx_read_bip32_path in H1. rewrite read_u8_cons in H1. destruct (read_bip32_path n l) as [[u v]|] eqn:E; [|discriminate]. injection H1 as -> ->.
  apply path_spec in E as (Hp & Lp & _ & Ln & a & -> & La).
  apply bind_token in H as (t' & Ht & H). injection Ht as -> -> ->. apply (token_spec b (x :: n :: a)) in H as [Ht Hl].
  split; [exact Ht|]. split; [|unfold blen; lia]. cbn [length]. rewrite app_length, La, Hl. reflexivity.
Qed.
Lemma parse_attest_token : forall b data a, bytes_ok data = true -> parse_attest_init b data = Ok a ->
  ap_token a = (if b then num (length data - 4) 4 data else 0).
Proof.
  intros b data a Hb H. destruct (parse_attest_spec _ _ _ Hb H) as (_ & _ & _ & _ & _ & _ & _ & _ & _ & _ & _ & _ & L & T).
  rewrite T, L. destruct b; reflexivity.
Qed.

(** ** The flow of the signing request *)

Definition sign_flow (known : bool) (token : N) (path_text : text) : flow :=
  SC_PATH (str "P2PK Signing") path_text true ::
  (if known then [] else [SC_TEXT (str "Application") (app_id_text token)]) ++ [SC_APPROVE; SC_REJECT; SC_LOOP; SC_END].
Lemma show_token_flow : forall c t k f c', p2pk_show_token_and_path c t k = Ok (f, c') ->
  exists x, bip32_path_format 60 (op_path c) = Some x /\ f = sign_flow k t x.
Proof.
  intros c t k f c' H. unfold p2pk_show_token_and_path in H. unfold ui_bip32_path_screen in H.
  destruct (bip32_path_format 60 (op_path c)) as [x|]; [|discriminate]. exists x. split; [reflexivity|].
  unfold add_operation_approve_screens in H. rewrite add_short in H by reflexivity. cbn [List.app] in H.
  change (MAX_NUMBER_OF_SCREENS <? blen [SC_PATH (str "P2PK Signing") x true] + 3) with false in H. cbv iota zeta in H.
  destruct k.
  - change (ui_approve_reject_screens [SC_PATH (str "P2PK Signing") x true]) with (Some ([SC_PATH (str "P2PK Signing") x true] ++ [SC_APPROVE; SC_REJECT])) in H.
    cbn [bind] in H. unfold display in H.
    match type of H with context [ui_display_screens ?l] => change (ui_display_screens l) with (Some (l ++ [SC_LOOP; SC_END])) in H end.
    cbn [bind] in H. injection H as <- _. reflexivity.
  - rewrite add_short in H by reflexivity. cbn [List.app] in H.
    match type of H with context [ui_approve_reject_screens ?l] => change (ui_approve_reject_screens l) with (Some (l ++ [SC_APPROVE; SC_REJECT])) in H end.
    cbn [bind] in H. unfold display in H.
    match type of H with context [ui_display_screens ?l] => change (ui_display_screens l) with (Some (l ++ [SC_LOOP; SC_END])) in H end.
    cbn [bind] in H. injection H as <- _. reflexivity.
Qed.

(** ** The flows with computed pages *)

Definition paged_flow (title : text) : flow :=
  [SC_INFO title; SC_UPPER; SC_PAGE; SC_LOWER; SC_APPROVE; SC_REJECT; SC_LOOP; SC_END].
Definition dyn_ok (d : dyn) : Prop := 1 <= dy_count d <= 254 /\ (dy_current d = 255 \/ dy_current d < dy_count d).
Lemma add_dynamic_spec : forall f n g d, ui_add_dynamic_flow_screens f n = Some (g, d) -> (length f <= 5)%nat -> n < 256 ->
  g = f ++ [SC_UPPER; SC_PAGE; SC_LOWER] /\ d = mk_dyn n 255 /\ dyn_ok d.
Proof.
  intros f n g d H L Ln. unfold ui_add_dynamic_flow_screens in H. destruct (_ <? _); [discriminate|].
  destruct ((n =? 0) || (n =? INDEX_NOT_EXIST)) eqn:Z; [discriminate|]. apply orb_false_iff in Z as [Z1 Z2]. apply N.eqb_neq in Z1, Z2.
  rewrite (add_short SC_UPPER f) in H by (unfold blen; lia).
  rewrite (add_short SC_PAGE) in H by (unfold blen; rewrite ?app_length; cbn [length]; lia).
  rewrite (add_short SC_LOWER) in H by (unfold blen; rewrite ?app_length; cbn [length]; lia).
  rewrite <- !app_assoc in H. cbn [List.app] in H. injection H as <- <-. split; [reflexivity|]. split; [reflexivity|].
  unfold dyn_ok, INDEX_NOT_EXIST in *. cbn. lia.
Qed.
Lemma paged : forall title n g d, (match ui_add_dynamic_flow_screens (add (SC_INFO title) []) n with
      | None => Fail SW_SCREENS_BUFFER_OVERFLOW
      | Some (f, d) => if MAX_NUMBER_OF_SCREENS <? blen f + 2 then Fail SW_SCREENS_BUFFER_OVERFLOW
          else match ui_approve_reject_screens f with None => Fail SW_UB | Some f => Ok (f, d) end end) = Ok (g, d) -> n < 256 ->
  display g = Ok (paged_flow title) /\ d = mk_dyn n 255 /\ dyn_ok d.
Proof.
  intros title n g d H Ln. destruct (ui_add_dynamic_flow_screens (add (SC_INFO title) []) n) as [[f x]|] eqn:E; [|discriminate].
  rewrite add_short in E by reflexivity. apply add_dynamic_spec in E as (-> & -> & D); [|cbn; lia|exact Ln]. cbn [List.app] in H.
  match type of H with (if ?b then _ else _) = _ => change b with false in H end. cbv iota in H.
  match type of H with context [ui_approve_reject_screens ?l] => change (ui_approve_reject_screens l) with (Some (l ++ [SC_APPROVE; SC_REJECT])) in H end.
  injection H as <- <-. split; [|auto]. reflexivity.
Qed.
Lemma u8_lt : forall x, u8 x < 256.
Proof. intro x. unfold u8, two8. apply N.mod_lt. discriminate. Qed.
Lemma output_flow : forall c f d c', p2pk_show_output_confirm_screen c = Ok (f, d, c') ->
  f = paged_flow (str "Confirm Output") /\ dyn_ok d /\ dy_current d = 255 /\
  exists t o, op_union_of c = OU_TX t /\ tx_output t = Some o /\
    dy_count d = (match oi_type o with OT_BIP32 _ => 1 | _ => u8 (2 + 2 * output_info_used_tokens_count o) end).
Proof.
  intros c f d c' H. unfold p2pk_show_output_confirm_screen in H.
  assert (G : match op_union_of c with
    | OU_TX t => match tx_output t with
          | None => Fail SW_UB
          | Some o => bind (add_output_screens [] o) (fun fd => bind (display (fst fd)) (fun f =>
              Ok (f, snd fd, op_set_union c (OU_TX (mk_tx (tx_full t) (Some o) [])))))
          end
    | _ => Fail SW_UB end = Ok (f, d, c')) by (destruct (op_state_of c); try discriminate; exact H).
  destruct (op_union_of c) as [|t|]; try discriminate. destruct (tx_output t) as [o|] eqn:Eo; [|discriminate].
  apply bind_ok in G as ([g x] & G1 & G). cbn [fst snd] in G. unfold add_output_screens in G1.
  change (MAX_NUMBER_OF_SCREENS <? blen ([] : flow) + 6) with false in G1. cbv iota zeta in G1.
  apply paged in G1 as (D1 & -> & D2).
  2: { destruct (oi_type o); try apply u8_lt. lia. }
  rewrite D1 in G. cbn [bind] in G. injection G as <- <- _. split; [reflexivity|]. split; [exact D2|]. split; [reflexivity|].
  exists t, o. auto.
Qed.
Lemma confirm_flow : forall c f d c', p2pk_show_confirm_screen c = Ok (f, d, c') ->
  f = paged_flow (str "Approve Signing") /\ dyn_ok d /\ dy_current d = 255 /\
  dy_count d = u8 (3 + 2 * amounts_non_zero_tokens_count (op_amounts c)).
Proof.
  intros c f d c' H. unfold p2pk_show_confirm_screen in H. destruct (op_state_of c); try discriminate.
  apply bind_ok in H as ([g x] & G1 & G). cbn [fst snd] in G. unfold add_transaction_screens in G1.
  change (MAX_NUMBER_OF_SCREENS <? blen ([] : flow) + 6) with false in G1. cbv iota zeta in G1.
  apply paged in G1 as (D1 & -> & D2); [|apply u8_lt].
  rewrite D1 in G. cbn [bind] in G. injection G as <- <- _. split; [reflexivity|]. split; [exact D2|]. split; [reflexivity|]. reflexivity.
Qed.
Lemma step_dyn_ok : forall d, dyn_ok d ->
  (dyn_ok (fst (ui_dynamic_step_left d)) /\ dy_count (fst (ui_dynamic_step_left d)) = dy_count d /\ forall i, snd (ui_dynamic_step_left d) = Some i -> i < dy_count d) /\
  (dyn_ok (fst (ui_dynamic_step_right d)) /\ dy_count (fst (ui_dynamic_step_right d)) = dy_count d /\ forall i, snd (ui_dynamic_step_right d) = Some i -> i < dy_count d).
Proof.
  intros [n c] [Hn Hc]. unfold ui_dynamic_step_left, ui_dynamic_step_right, dyn_ok, INDEX_NOT_EXIST in *. cbn [dy_count dy_current] in *.
  assert (U : u8 (n + two8 - 1) = n - 1).
  { unfold u8, two8. replace (n + 256 - 1) with (n - 1 + 1 * 256) by lia. rewrite N.mod_add by discriminate. apply N.mod_small. lia. }
  rewrite U. split.
  - destruct (c =? 255) eqn:E; [|destruct (c =? 0) eqn:E0]; cbn [fst snd dy_count dy_current]; (split; [|split; [reflexivity|]]);
      try (intros i K; injection K as <-); rewrite ?N.eqb_eq, ?N.eqb_neq in *; try lia; discriminate.
  - destruct (c =? 255) eqn:E; [|destruct (c + 1 <? n) eqn:E0]; cbn [fst snd dy_count dy_current]; (split; [|split; [reflexivity|]]);
      try (intros i K; injection K as <-); rewrite ?N.eqb_eq, ?N.eqb_neq, ?N.ltb_lt, ?N.ltb_ge in *; try lia; discriminate.
Qed.

(** ** The invariant *)

(** The number of pages of a signing screen. *)
Definition page_count (k : ui_kind) (op : p2pk) : N :=
  match k with
  | U_STX_TX => u8 (3 + 2 * amounts_non_zero_tokens_count (op_amounts op))
  | _ => match op_union_of op with
         | OU_TX t => match tx_output t with
                      | Some o => match oi_type o with OT_BIP32 _ => 1 | _ => u8 (2 + 2 * output_info_used_tokens_count o) end
                      | None => 0
                      end
         | _ => 0
         end
  end.
Definition asked (E : env) (st : state) (e : event) (pages : list page) : Prop :=
  event_ok e /\
  match st_ctx st with
  | X_NONE => False
  | X_EPK c => exists p1 data r s, e = Apdu CLA INS_KEY p1 0 data r /\ one_or_two p1 = true /\
      length data = (1 + 4 * length (key_path data) + if (p1 =? 2)%N then 4 else 0)%nat /\
      ergo_path_validate (key_path data) V_ACCOUNT_GE3 = true /\
      generate_public_key E (key_path data) = Some (ep_key c, ep_chain c) /\ ep_token c = token_of e /\
      ui_bip32_path_screen (key_path data) (str "Path") 60 false = Some s /\ st_flow st = epk_flow (token_of e) s /\ pages = []
  | X_DA c => exists p1 p2 data r pk ch f, e = Apdu CLA INS_ADDRESS p1 p2 data r /\ one_or_two p1 = true /\ one_or_two p2 = true /\
      length data = (2 + 4 * length (address_path data) + if (p2 =? 2)%N then 4 else 0)%nat /\
      ergo_path_validate (address_path data) V_ADDRESS_GE5 = true /\ generate_public_key E (address_path data) = Some (pk, ch) /\
      ergo_address_from_pubkey (e_blake E) (address_network data) pk = Some (da_address c) /\
      da_token c = token_of e /\ da_send c = (p1 =? 1) /\ da_screens (p1 =? 1) (token_of e) (address_path data) (da_address c) = Ok f /\
      st_flow st = f ++ [SC_LOOP; SC_END] /\ pages = []
  | X_ATTEST c => exists p2 data r, e = Apdu CLA INS_ATTEST 1 p2 data r /\ one_or_two p2 = true /\ at_token c = token_of e /\
      st_flow st = attest_flow (token_of e) /\ pages = [] /\ In (at_session c) (r_ids r) /\ at_session c <> 0
  | X_SIGN g =>
      match sg_state g with
      | SG_INITIALIZED => exists p2 data r x known, e = Apdu CLA INS_SIGN 1 p2 data r /\ one_or_two p2 = true /\
          op_union_of (sg_op g) = OU_APPROVE (token_of e) /\ bip32_path_format 60 (start_path data) = Some x /\
          st_flow st = sign_flow known (token_of e) x /\ pages = []
      | SG_APPROVED => exists sub data r, e = Apdu CLA INS_SIGN sub (sg_session g) data r /\ sub <> 1 /\
          (st_ui st = U_STX_TX <-> sub = 0x20) /\
          pages = pages_of E (st_ui st) (st_ctx st) (dy_count (st_dyn st)) /\ dyn_ok (st_dyn st) /\
          st_flow st = paged_flow (str (match st_ui st with U_STX_TX => "Approve Signing" | _ => "Confirm Output" end)) /\
          dy_count (st_dyn st) = page_count (st_ui st) (sg_op g)
      end
  end.
Definition screen_inv (E : env) (tr : list obs) (st : state) : Prop :=
  remembered tr = st_connected st /\
  if st_busy st then exists e pages, on_screen tr = Some (e, st_ui st, st_flow st, pages) /\ asked E st e pages
  else on_screen tr = None.

Lemma shown_resp : forall d s, shown_by [OResp d s] = None. Proof. reflexivity. Qed.

(** The screen and the token are not touched. *)
Lemma screen_same : forall E tr st o, screen_inv E tr st -> shown_by (snd o) = None -> by_user (fst o) && responds (snd o) = false ->
  is_approval o = false -> screen_inv E (tr ++ [o]) st.
Proof.
  intros E tr st o [H1 H2] K1 K2 K3. unfold screen_inv. rewrite remembered_snoc, on_screen_snoc. unfold question_after. rewrite K1, K2, K3.
  split; [|exact H2]. destruct (on_screen tr) as [[[[? ?] ?] ?]|]; rewrite ?andb_false_r; exact H1.
Qed.
(** Commands of an idle device that do not show anything. *)
Lemma screen_idle : forall E tr st st' e outs, screen_inv E tr st -> st_busy st = false -> st_busy st' = false ->
  st_connected st' = st_connected st -> shown_by outs = None -> screen_inv E (tr ++ [(e, outs)]) st'.
Proof.
  intros E tr st st' e outs [H1 H2] B B' C K. unfold screen_inv. rewrite remembered_snoc, on_screen_snoc. unfold question_after. cbn [fst snd]. rewrite K.
  rewrite B in H2. rewrite B', H2, C. split; [exact H1|]. destruct (_ && _); reflexivity.
Qed.
(** A question is asked. *)
Lemma screen_ask : forall E tr st st' e k f pages, screen_inv E tr st -> st_busy st = false -> st_busy st' = true ->
  st_connected st' = st_connected st -> st_ui st' = k -> st_flow st' = f -> asked E st' e pages ->
  screen_inv E (tr ++ [(e, [OShow k f pages])]) st'.
Proof.
  intros E tr st st' e k f pages [H1 H2] B B' C <- <- A. unfold screen_inv. rewrite remembered_snoc, on_screen_snoc. cbn [question_after shown_by fst snd].
  rewrite B in H2. rewrite B', H2, C. split; [exact H1|]. eauto.
Qed.
(** The user answers. *)
Lemma screen_answer : forall E tr st st' e outs, screen_inv E tr st -> by_user e = true -> responds outs = true -> shown_by outs = None ->
  st_busy st' = false ->
  (forall q k f pages, on_screen tr = Some (q, k, f, pages) -> k = st_ui st -> asked E st q pages ->
     st_connected st' = if asks_for_token k && is_approval (e, outs) then token_of q else st_connected st) ->
  st_busy st = true -> screen_inv E (tr ++ [(e, outs)]) st'.
Proof.
  intros E tr st st' e outs [H1 H2] U R S B' K B. unfold screen_inv. rewrite remembered_snoc, on_screen_snoc. unfold question_after. cbn [fst snd].
  rewrite S, U, R, B'. cbn [andb]. split; [|reflexivity]. rewrite B in H2. destruct H2 as (q & pages & Ho & A). rewrite Ho.
  rewrite (K _ _ _ _ Ho eq_refl A), H1. destruct (_ && _); reflexivity.
Qed.

Lemma token_key : forall p1 data r, token_of (Apdu CLA INS_KEY p1 0 data r) = if p1 =? 2 then num (length data - 4) 4 data else 0.
Proof. reflexivity. Qed.
Lemma token_other : forall ins p1 p2 data r, ins <> INS_KEY -> token_of (Apdu CLA ins p1 p2 data r) = if p2 =? 2 then num (length data - 4) 4 data else 0.
Proof. intros ins p1 p2 data r H. apply N.eqb_neq in H. cbn [token_of]. unfold request_token, has_token. rewrite H. reflexivity. Qed.
Lemma busy_ui : forall st, shape st -> menu_ui (st_ui st) = false -> st_busy st = true.
Proof. intros st H K. destruct (st_busy st) eqn:B; [reflexivity|]. rewrite (shape_idle _ H B) in K. discriminate. Qed.
Lemma menu_idle : forall st, shape st -> menu_ui (st_ui st) = true -> st_busy st = false.
Proof.
  intros st H K. destruct (st_busy st) eqn:B; [|reflexivity]. exfalso. unfold shape in H. rewrite B in H. destruct (st_ctx st) as [|x|x|x|g].
  - destruct H as (? & _). discriminate.
  - destruct H as (_ & U & _). rewrite U in K. discriminate.
  - destruct H as (_ & U & _). rewrite U in K. discriminate.
  - destruct H as (_ & H). destruct (at_state x); destruct H as [H1 H2]; try discriminate. rewrite H2 in K. discriminate.
  - destruct H as (_ & H). destruct (sg_state g).
    + destruct H as (_ & U & _). rewrite U in K. discriminate.
    + destruct H as [[H _]|[(_ & U & _)|[_ U]]]; [discriminate| |]; rewrite U in K; discriminate.
Qed.
Lemma send_not_ub : forall E c s, p2pk_send_response E c = Fail s -> s <> SW_UB.
Proof.
  intros E c s H. unfold p2pk_send_response in H. destruct (op_state_of c); try (injection H as <-; discriminate).
  destruct (e_derive E (op_path c)) as [[x y]|]; [|injection H as <-; discriminate].
  destruct (schnorr_sign_finish _ _ _ _); [discriminate|injection H as <-; discriminate].
Qed.

Lemma screen_inv_holds : forall E key tr st, env_ok E -> history E key tr st -> screen_inv E tr st.
Proof.
  intros E key tr st Henv H. revert tr st H. apply history_ind_move; [split; reflexivity|].
  intros tr st e outs st' Hh Sh IH Hev M Hd _.
  destruct M; try (exfalso; apply Hd; left; reflexivity).
  - apply screen_same; [exact IH|reflexivity| |].
    + destruct e; cbn in H; try contradiction; reflexivity.
    + destruct e; cbn in H; try contradiction; reflexivity.
  - apply screen_same; [exact IH|reflexivity..].
  - apply screen_same; [exact IH|reflexivity..].
  - apply screen_same; [exact IH|reflexivity|apply andb_false_r|]. destruct e; reflexivity.
  - eapply (screen_idle E tr st); eauto. apply menu_idle; [exact Sh|]. rewrite H. reflexivity.
  - eapply (screen_idle E tr st); eauto. apply menu_idle; [exact Sh|]. rewrite H. reflexivity.
  - eapply (screen_idle E tr st); eauto. destruct s; reflexivity.
  - eapply (screen_idle E tr st); eauto.
  - eapply (screen_idle E tr st); eauto.
  - (* key: ask *)
    eapply (screen_ask E tr st); eauto. split; [exact Hev|]. cbn [st_ctx show set_ctx].
    apply parse_epk_spec in H1 as (-> & -> & L & _ & _). exists p1, data, r, s. rewrite token_key. cbn [ep_key ep_chain ep_token].
    do 4 (split; [assumption || reflexivity|]). split; [exact H3|]. split; [reflexivity|]. split; [exact H5|]. split; reflexivity.
  - (* key: answer *)
    eapply (screen_answer E tr st); eauto; try (destruct b; reflexivity); [|apply busy_ui; [exact Sh|]; rewrite H; reflexivity].
    intros q k f pages Ho -> A. rewrite H. unfold asked in A. rewrite H0 in A. destruct A as (_ & p1 & data & r & s & -> & A).
    decompose [and] A. destruct b; cbn; auto.
  - eapply (screen_idle E tr st); eauto.
  - (* address: ask *)
    eapply (screen_ask E tr st); eauto. split; [exact Hev|]. cbn [st_ctx show set_ctx].
    apply parse_da_spec in H2 as (-> & -> & -> & L & _). exists p1, p2, data, r, pk, c, f. rewrite token_other by discriminate.
    cbn [da_address da_token da_send]. do 4 (split; [assumption || reflexivity|]). do 3 (split; [assumption|]).
    split; [reflexivity|]. split; [reflexivity|]. split; [exact H7|]. split; reflexivity.
  - eapply (screen_answer E tr st); eauto; try (destruct b; reflexivity); [|apply busy_ui; [exact Sh|]; rewrite H; reflexivity].
    intros q k f pages Ho -> A. rewrite H. unfold asked in A. rewrite H0 in A. destruct A as (_ & p1 & p2 & data & r & pk & ch & s & -> & A).
    decompose [and] A. destruct b; cbn; auto.
  - eapply (screen_idle E tr st); eauto.
  - (* attestation: ask *)
    eapply (screen_ask E tr st); eauto. split; [exact Hev|]. cbn [st_ctx show set_ctx].
    apply random_id in H3 as (R1 & _ & R2).
    exists p2, data, r. rewrite token_other by discriminate. rewrite <- (parse_attest_token _ _ _ (proj1 (proj2 (proj2 (proj2 (proj2 Hev))))) H1).
    do 2 (split; [assumption || reflexivity|]). split; [reflexivity|]. split; [reflexivity|]. auto.
  - eapply (screen_idle E tr st); eauto.
  - eapply (screen_idle E tr st); eauto.
  - eapply (screen_idle E tr st); eauto.
  - eapply (screen_answer E tr st); eauto; try (destruct b; reflexivity); [|apply busy_ui; [exact Sh|]; rewrite H; reflexivity].
    intros q k f pages Ho -> A. rewrite H. unfold asked in A. rewrite H0 in A. destruct A as (_ & p2 & data & r & -> & A).
    decompose [and] A. destruct b; cbn; auto.
  - (* signing: ask *)
    eapply (screen_ask E tr st); eauto. split; [exact Hev|]. cbn [st_ctx show set_ctx sg_state sg_op].
    pose proof (parse_sign_token _ _ _ _ _ H1) as (Ht & _ & _). apply parse_sign_spec in H1 as (-> & -> & _).
    assert (Hp : op_path op = start_path data).
    { unfold p2pk_init in H2. destruct (negb _); [discriminate|]. destruct (negb _); [discriminate|].
      destruct (e_derive E (start_path data)) as [[? ?]|]; [|discriminate].
      destruct (schnorr_sign_init _ _ _) as [[? ?]|]; [|discriminate]. injection H2 as <-. reflexivity. }
    destruct (show_token_flow _ _ _ _ _ H4) as (x & X1 & X2). rewrite Hp in X1. apply shape_show_token in H4. subst op'.
    exists p2, data, r, x, (is_known_application (st_connected st) token). rewrite token_other, <- Ht by discriminate.
    do 4 (split; [assumption || reflexivity|]). split; [exact X2|reflexivity].
  - eapply (screen_idle E tr st); eauto.
  - (* an output is shown *)
    eapply (screen_ask E tr st); eauto. split; [exact Hev|]. unfold sg_put. cbn [st_ctx show set_ctx sg_state st_ui st_dyn]. rewrite H2.
    exists sub, data, r. cbn [sg_session]. do 2 (split; [assumption || reflexivity|]).
    destruct (output_flow _ _ _ _ H7) as (F1 & F2 & _ & tt & oo & F4 & F5 & F6).
    split; [|split; [reflexivity|]; split; [exact F2|]; split; [exact F1|]].
    2: { apply shape_show_output in H7 as (t & oi & U1 & U2 & ->). rewrite U1 in F4. injection F4 as <-. rewrite U2 in F5. injection F5 as <-. exact F6. }
    split; [discriminate|]. intros ->. exfalso. revert H5. cbn. discriminate.
  - eapply (screen_ask E tr st); eauto. split; [exact Hev|]. unfold sg_put. cbn [st_ctx show set_ctx sg_state st_ui st_dyn]. rewrite H2.
    exists 0x20, data, r. cbn [sg_session]. split; [reflexivity|]. split; [discriminate|].
    destruct (confirm_flow _ _ _ _ H4) as (F1 & F2 & _ & F4). split; [|split; [reflexivity|]; split; [exact F2|]; split; [exact F1|]].
    2: { assert (Ha : op_amounts op' = op_amounts (sg_op g)).
         { unfold p2pk_show_confirm_screen in H4. destruct (op_state_of (sg_op g)); try discriminate.
           apply bind_ok in H4 as (fd & _ & H4). apply bind_ok in H4 as (ff & _ & H4). injection H4 as _ _ <-. reflexivity. }
         cbn [page_count sg_op]. rewrite Ha. exact F4. }
    split; reflexivity.
  - (* the start is approved *)
    eapply (screen_answer E tr st); eauto; try (destruct H1 as [-> | ->]; reflexivity); [|apply busy_ui; [exact Sh|]; rewrite H; reflexivity].
    intros q k f pages Ho -> A. rewrite H. unfold asked in A. rewrite H0 in A. destruct A as (_ & A).
    assert (Hg : sg_state g = SG_INITIALIZED).
    { unfold shape in Sh. rewrite H0 in Sh. destruct Sh as [_ Sh]. destruct (sg_state g); [reflexivity|].
      rewrite H in Sh. destruct Sh as [[_ K]|[(_ & K & _)|[_ K]]]; discriminate. }
    rewrite Hg in A. destruct A as (p2 & data & r & x & kn & Eq & _ & A & _). rewrite A in H2. injection H2 as H2.
    destruct H1 as [-> | ->]; cbn [asks_for_token is_approval accepted existsb success orb andb st_connected ui_menu_main set_ctx set_connected]; congruence.
  - eapply (screen_answer E tr st); eauto; try reflexivity; [|apply busy_ui; [exact Sh|]; rewrite H; reflexivity].
    intros q k f pages Ho -> A. rewrite H. reflexivity.
  - eapply (screen_answer E tr st); eauto; try reflexivity; [|apply busy_ui; [exact Sh|]; rewrite H; reflexivity].
    intros q k f pages Ho -> A. rewrite H. reflexivity.
  - assert (Hs : resp s = OResp [] s). { apply send_not_ub in H1. destruct s; try reflexivity. congruence. } rewrite Hs.
    eapply (screen_answer E tr st); eauto; try reflexivity; [|apply busy_ui; [exact Sh|]; rewrite H; reflexivity].
    intros q k f pages Ho -> A. rewrite H. reflexivity.
  - eapply (screen_answer E tr st); eauto; try reflexivity.
    + intros q k f pages Ho -> A. rewrite andb_false_r. reflexivity.
    + apply busy_ui; [exact Sh|]. destruct H as [H|H]; [destruct (st_ui st); try discriminate; reflexivity|rewrite H; reflexivity].
  - (* pages *)
    assert (B : st_busy st = true) by (apply busy_ui; [exact Sh|]; destruct (st_ui st); try discriminate; reflexivity).
    assert (G : screen_inv E (tr ++ [(e, [])]) st).
    { apply screen_same; [exact IH|reflexivity|apply andb_false_r|]. destruct H0 as [[-> _]|[-> _]]; reflexivity. }
    destruct G as [G1 G2]. split; [exact G1|]. cbn [st_busy set_dyn]. rewrite B in *. destruct G2 as (q & pages & Ho & A1 & A).
    exists q, pages. split; [exact Ho|]. split; [exact A1|]. cbn [st_ctx set_dyn st_flow st_ui st_dyn].
    destruct (st_ctx st) as [|x|x|x|g]; try exact A. destruct (sg_state g); [exact A|].
    destruct A as (sub & data & r & X1 & X2 & X3 & X4 & X5 & X6 & X7). exists sub, data, r. do 3 (split; [assumption|]).
    destruct (step_dyn_ok _ X5) as [(L1 & L2 & _) (R1 & R2 & _)]. destruct H0 as [[-> Z]|[-> Z]]; rewrite Z in *; cbn [fst] in *;
      (split; [congruence|]; split; [assumption|]; split; [assumption|congruence]).
  - assert (B : st_busy st = true) by (apply busy_ui; [exact Sh|]; destruct (st_ui st); try discriminate; reflexivity).
    assert (G : screen_inv E (tr ++ [(e, [OPage i title body])]) st).
    { apply screen_same; [exact IH|reflexivity|apply andb_false_r|]. destruct H0 as [[-> _]|[-> _]]; reflexivity. }
    destruct G as [G1 G2]. split; [exact G1|]. cbn [st_busy set_dyn]. rewrite B in *. destruct G2 as (q & pages & Ho & A1 & A).
    exists q, pages. split; [exact Ho|]. split; [exact A1|]. cbn [st_ctx set_dyn st_flow st_ui st_dyn].
    destruct (st_ctx st) as [|x|x|x|g]; try exact A. destruct (sg_state g); [exact A|].
    destruct A as (sub & data & r & X1 & X2 & X3 & X4 & X5 & X6 & X7). exists sub, data, r. do 3 (split; [assumption|]).
    destruct (step_dyn_ok _ X5) as [(L1 & L2 & _) (R1 & R2 & _)]. destruct H0 as [[-> Z]|[-> Z]]; rewrite Z in *; cbn [fst] in *;
      (split; [congruence|]; split; [assumption|]; split; [assumption|congruence]).
  - eapply (screen_answer E tr st); eauto; try reflexivity.
    + destruct H0 as [[-> _]|[-> _]]; reflexivity.
    + intros q k f pages Ho -> A. destruct H0 as [[-> _]|[-> _]]; rewrite andb_false_r; reflexivity.
    + apply busy_ui; [exact Sh|]. destruct (st_ui st); try discriminate; reflexivity.
  - assert (B : st_busy st = true) by (apply busy_ui; [exact Sh|]; destruct (st_ui st); try discriminate; reflexivity).
    assert (G : screen_inv E (tr ++ [(e, [OUb])]) st).
    { apply screen_same; [exact IH|reflexivity|apply andb_false_r|]. destruct H0 as [[-> _]|[-> _]]; reflexivity. }
    destruct G as [G1 G2]. split; [exact G1|]. cbn [st_busy set_dyn]. rewrite B in *. destruct G2 as (q & pages & Ho & A1 & A).
    exists q, pages. split; [exact Ho|]. split; [exact A1|]. cbn [st_ctx set_dyn st_flow st_ui st_dyn].
    destruct (st_ctx st) as [|x|x|x|g]; try exact A. destruct (sg_state g); [exact A|].
    destruct A as (sub & data & r & X1 & X2 & X3 & X4 & X5 & X6 & X7). exists sub, data, r. do 3 (split; [assumption|]).
    destruct (step_dyn_ok _ X5) as [(L1 & L2 & _) (R1 & R2 & _)]. destruct H0 as [[-> Z]|[-> Z]]; rewrite Z in *; cbn [fst] in *;
      (split; [congruence|]; split; [assumption|]; split; [assumption|congruence]).
Qed.
