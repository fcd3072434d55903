(** What the error codes say: all events of all histories. *)
From Verif Require Import Lib Gve CodecProofs Env SpecVlq Bip32 ErgoTree Address Schnorr TxTable TxBox InputFrame Format UiFlow P2pkOp App SpecText SpecTree SpecTrace SpecTx SpecApdu
  SpecScreen SpecRequest SpecDispatch SpecSign SpecPages SpecRules SpecAccept SpecAttest SpecStart SpecStatus Moves SignInv SignInput SignRest SignShow TraceSign TraceAttest
  TraceScreen TraceShow TraceUb FlowProofs DispatchProofs RequestProofs SessionProofs AttestProofs AcceptInput AcceptFrame AcceptOutput AcceptProofs AttestAccept SignedProofs
  StartAccept OpenAccept StatusProofs StatusAttest StatusStart.

#[local] Arguments N.eqb : simpl never.
#[local] Arguments N.ltb : simpl never.
#[local] Arguments N.leb : simpl never.
#[local] Arguments N.sub : simpl never.
#[local] Arguments blen : simpl never.
#[local] Arguments num : simpl never.
#[local] Arguments slice : simpl never.

(** ** Open sessions *)

Lemma open_signing : forall E key tr st g, env_ok E -> history E key tr st -> st_busy st = false -> st_ctx st = X_SIGN g ->
  exists start body s, signing (sg_session g) tr start body /\ st_key st = key /\ sg_state g = SG_APPROVED /\ streaming E s (description body) (sg_op g).
Proof.
  intros E key tr st g Henv H B X. pose proof (history_shape _ _ _ _ H) as Sh. pose proof (shape_idle _ Sh B) as Hm.
  destruct (sign_inv_holds E key tr st Henv H) as [Hk I]. rewrite X in I. destruct I as (start & body & s & I1 & I2 & I3 & I4).
  assert (Hg : sg_state g = SG_APPROVED). { destruct (sg_state g) eqn:Eg; [|reflexivity]. exfalso. unfold shape in Sh. rewrite X, Eg in Sh. destruct Sh as (_ & K & _). congruence. }
  unfold sign_phase in I4. rewrite Hg in I4. destruct I4 as [A P].
  exists start, body, s. split; [|split; [exact Hk|split; [exact Hg|destruct (st_ui st); try discriminate; exact P]]].
  split; [split; [exact I1|split; [exact I3|right; exact A]]|].
  pose proof (intact_body E key tr st INS_SIGN start body (or_intror eq_refl) H I1) as M. rewrite X in M. specialize (M eq_refl).
  rewrite Forall_forall in M |- *. intros o I. split; [|apply M, I].
  destruct (signature o) as [sig|] eqn:So; [|reflexivity]. exfalso. apply session_suffix in I1 as (pre & -> & _ & F).
  apply in_split in I as (b1 & b2 & ->). apply Forall_app in F as [_ F]. pose proof (Forall_inv_tail F) as F2.
  replace (pre ++ start :: b1 ++ o :: b2) with ((pre ++ start :: b1 ++ [o]) ++ b2) in H by (rewrite <- app_assoc; cbn [List.app]; rewrite <- app_assoc; reflexivity).
  destruct (history_prefix _ _ _ _ _ H) as (q & Hq).
  assert (Cq : st_ctx q = X_NONE).
  { apply (signed E key (pre ++ start :: b1) o q sig Henv); [|exact So]. rewrite <- app_assoc. exact Hq. }
  apply (no_context E key _ q b2 st INS_SIGN (or_intror eq_refl) Hq); [rewrite Cq; discriminate| |exact H|exact F2|rewrite X; reflexivity].
  intros q' Hq'. eapply history_fun; eassumption.
Qed.
Lemma open_attesting : forall E key tr st c, env_ok E -> history E key tr st -> st_busy st = false -> st_ctx st = X_ATTEST c ->
  exists start body, attesting (at_session c) tr start body /\ at_state c <> AT_INITIALIZED /\ attest_phase E start body c.
Proof.
  intros E key tr st c Henv H B X. pose proof (history_shape _ _ _ _ H) as Sh.
  destruct (attest_inv_holds E key tr st Henv H) as [Hk I]. rewrite X in I. destruct I as (start & body & I1 & I2 & I3 & I4).
  assert (Hg : at_state c <> AT_INITIALIZED). { intro Eg. unfold shape in Sh. rewrite X, Eg in Sh. destruct Sh as (_ & K & _). congruence. }
  exists start, body. split; [|split; assumption]. split.
  - split; [exact I1|]. split; [exact I3|]. unfold session_id. unfold attest_phase in I4.
    destruct (at_state c); [contradiction| |]; destruct I4 as [[A|A] _]; auto.
  - apply (intact_body E key tr st INS_ATTEST start body (or_introl eq_refl) H I1). rewrite X. reflexivity.
Qed.

(** ** Requests to an idle device *)

Lemma sign_why : forall E key tr st p1 p2 data r b s, env_ok E -> history E key tr st -> event_ok (Apdu CLA INS_SIGN p1 p2 data r) -> st_busy st = false ->
  In (OResp b s) (snd (handler_sign E st data p1 p2 r)) -> s <> SW_OK -> b = [] /\ request_error E key tr INS_SIGN p1 p2 data r s.
Proof.
  intros E key tr st p1 p2 data r b s Henv H Hev B Hin Hs. destruct Hev as (_ & _ & _ & _ & Hby & Hl & _). assert (Hl' : blen data <= 255) by (unfold blen; lia).
  unfold request_error. change (INS_SIGN =? INS_KEY) with false. change (INS_SIGN =? INS_ADDRESS) with false. change (INS_SIGN =? INS_ATTEST) with false.
  change (INS_SIGN =? INS_SIGN) with true. cbv iota. unfold handler_sign in Hin. rewrite B in Hin. destruct (p1 =? 1) eqn:P1.
  - destruct (negb (p2 =? 1) && negb (p2 =? 2)) eqn:P2; [|eapply sign_start_why; eassumption].
    destruct (resp_in _ _ _ Hin) as [-> ->]. split; [reflexivity|]. cbv [sign_start_error]. unfold one_or_two. destruct (p2 =? 1), (p2 =? 2); try discriminate; reflexivity.
  - assert (Su : In p1 sign_commands <-> is_sign_subcommand p1 = true).
    { split; [|exact (sub_dec p1)]. intro K. cbn [sign_commands In] in K. repeat (destruct K as [<-|K]; [reflexivity|]). destruct K. }
    unfold session_error. destruct (is_sign_subcommand p1) eqn:Hc.
    2: { destruct (resp_in _ _ _ Hin) as [-> ->]. split; [reflexivity|]. left. split; [|reflexivity]. intro K. apply Su in K. discriminate. }
    assert (Hin1 : In p1 sign_commands) by (apply Su; reflexivity).
    assert (Idle : on_screen tr = None) by (apply (idle_iff E key tr st Henv H); exact B).
    pose proof (history_shape _ _ _ _ H) as Sh.
    destruct (st_ctx st) as [|x|x|x|g] eqn:X.
    5: { assert (Hcmd : st_cmd st = CMD_SIGN) by (unfold shape in Sh; rewrite X in Sh; apply Sh). rewrite Hcmd in Hin.
         destruct (open_signing E key tr st g Henv H B X) as (start & body & q & Sg & Hk & Hg & St).
         destruct (N.eqb_spec p2 (sg_session g)) as [->|N2].
         - destruct (command_why E key q (description body) st g p1 data b s Henv Hby Hl' St Hk Hg Hc Hin Hs) as [-> W]. split; [reflexivity|].
           right. split; [exact Hin1|]. right. exists (sg_session g), start, body. split; [exact Sg|]. right. split; [reflexivity|exact W].
         - destruct (resp_in _ _ _ Hin) as [-> ->]. split; [reflexivity|]. right. split; [exact Hin1|]. right. exists (sg_session g), start, body. split; [exact Sg|]. left. auto. }
    all: assert (Hcmd : st_cmd st <> CMD_SIGN) by (unfold shape in Sh; rewrite X in Sh; destruct Sh as (? & ? & ?) || destruct Sh as (? & ?); intuition congruence).
    all: assert (Hin' : In (OResp b s) [resp SW_BAD_STATE]) by (destruct (st_cmd st); [exact Hin|exact Hin|exact Hin|exact Hin|congruence]).
    all: destruct (resp_in _ _ _ Hin') as [-> ->]; (split; [reflexivity|]); right; (split; [exact Hin1|]); left; (split; [|reflexivity]); intros id start body Sg;
      destruct (signing_state E key tr st id start body Henv H Sg Idle) as (g & q & _ & _ & _ & K & _); congruence.
Qed.
Lemma attest_why : forall E key tr st p1 p2 data r b s, env_ok E -> history E key tr st -> event_ok (Apdu CLA INS_ATTEST p1 p2 data r) -> st_busy st = false ->
  In (OResp b s) (snd (handler_attest E st data p1 p2 r)) -> s <> SW_OK -> b = [] /\ request_error E key tr INS_ATTEST p1 p2 data r s.
Proof.
  intros E key tr st p1 p2 data r b s Henv H Hev B Hin Hs. destruct Hev as (_ & _ & _ & _ & Hby & Hl & _). assert (Hl' : blen data <= 255) by (unfold blen; lia).
  unfold request_error. change (INS_ATTEST =? INS_KEY) with false. change (INS_ATTEST =? INS_ADDRESS) with false. change (INS_ATTEST =? INS_ATTEST) with true.
  cbv iota. unfold handler_attest in Hin. rewrite B, match_sub in Hin. destruct (p1 =? 1) eqn:P1.
  - destruct (negb (p2 =? 1) && negb (p2 =? 2)) eqn:P2; [|eapply attest_start_why; eassumption].
    destruct (resp_in _ _ _ Hin) as [-> ->]. split; [reflexivity|]. cbv [attest_start_error]. unfold one_or_two. destruct (p2 =? 1), (p2 =? 2); try discriminate; reflexivity.
  - assert (Idle : on_screen tr = None) by (apply (idle_iff E key tr st Henv H); exact B). pose proof (history_shape _ _ _ _ H) as Sh.
    assert (G : forall k, In p1 box_commands ->
      (forall c start body, st_ctx st = X_ATTEST c -> at_state c <> AT_INITIALIZED -> attest_phase E start body c -> In (OResp b s) (snd (k c)) ->
         b = [] /\ box_error (streamed_box start body) p1 data s) ->
      In (OResp b s) (snd (match st_cmd st with
        | CMD_ATTEST => match st_ctx st with
                        | X_ATTEST c => if p2 =? at_session c then k c else handler_err st SW_BAD_SESSION_ID
                        | _ => handler_err st SW_UB
                        end
        | _ => handler_err st SW_BAD_STATE end)) ->
      b = [] /\ session_error box_commands (fun id start body => attesting id tr start body)
                  (fun start body => box_error (streamed_box start body) p1 data) p1 p2 s).
    { clear Hin. intros k Hin1 Wk Hin. unfold session_error. destruct (st_ctx st) as [|x|x|c|x] eqn:X.
      4: { assert (Hcmd : st_cmd st = CMD_ATTEST) by (unfold shape in Sh; rewrite X in Sh; apply Sh). rewrite Hcmd in Hin.
           destruct (open_attesting E key tr st c Henv H B X) as (start & body & Sg & Hg & Ph).
           destruct (N.eqb_spec p2 (at_session c)) as [->|N2].
           - destruct (Wk c start body eq_refl Hg Ph Hin) as [-> W]. split; [reflexivity|].
             right. split; [exact Hin1|]. right. exists (at_session c), start, body. split; [exact Sg|]. right. split; [reflexivity|exact W].
           - destruct (resp_in _ _ _ Hin) as [-> ->]. split; [reflexivity|]. right. split; [exact Hin1|]. right. exists (at_session c), start, body. split; [exact Sg|]. left. auto. }
      all: assert (Hcmd : st_cmd st <> CMD_ATTEST) by (unfold shape in Sh; rewrite X in Sh; destruct Sh as (? & ? & ?) || destruct Sh as (? & ?); intuition congruence).
      all: assert (Hin' : In (OResp b s) [resp SW_BAD_STATE]) by (destruct (st_cmd st); [exact Hin|exact Hin|exact Hin|congruence|exact Hin]).
      all: destruct (resp_in _ _ _ Hin') as [-> ->]; (split; [reflexivity|]); right; (split; [exact Hin1|]); left; (split; [|reflexivity]); intros id start body Sg;
        destruct (attest_state E key tr st id start body Henv H Sg Idle) as (c & _ & _ & _ & K & _); congruence. }
    destruct (N.eqb_spec p1 2) as [->|N2].
    { apply G in Hin; [exact Hin|cbn; tauto|]. intros c start body X Hg Ph K.
      apply (proj1 (box_command_why E key tr st start body c 2 data b s Henv H Hby Hl' X Hg Ph) _ eq_refl K Hs). }
    destruct (N.eqb_spec p1 3) as [->|N3].
    { apply G in Hin; [exact Hin|cbn; tauto|]. intros c start body X Hg Ph K.
      apply (proj1 (box_command_why E key tr st start body c 3 data b s Henv H Hby Hl' X Hg Ph) _ eq_refl K Hs). }
    destruct (N.eqb_spec p1 4) as [->|N4].
    { apply G in Hin; [exact Hin|cbn; tauto|]. intros c start body X Hg Ph K.
      apply (proj1 (box_command_why E key tr st start body c 4 data b s Henv H Hby Hl' X Hg Ph) _ eq_refl K Hs). }
    destruct (N.eqb_spec p1 5) as [->|N5].
    { apply G in Hin; [exact Hin|cbn; tauto|]. intros c start body X Hg Ph K.
      apply (proj2 (box_command_why E key tr st start body c 5 data b s Henv H Hby Hl' X Hg Ph) eq_refl K Hs). }
    destruct (resp_in _ _ _ Hin) as [-> ->]. split; [reflexivity|]. left. split; [|reflexivity]. cbn [box_commands In]. intros [K|[K|[K|[K|K]]]]; congruence || destruct K.
Qed.

Lemma apdu_why : forall E key tr st cla ins p1 p2 data r b s, env_ok E -> history E key tr st -> event_ok (Apdu cla ins p1 p2 data r) ->
  In (OResp b s) (snd (step E st (Apdu cla ins p1 p2 data r))) -> s <> SW_OK ->
  b = [] /\ (link_error tr cla ins p1 p2 s \/ cla = CLA /\ on_screen tr = None /\ request_error E key tr ins p1 p2 data r s).
Proof.
  intros E key tr st cla ins p1 p2 data r b s Henv H Hev Hin Hs.
  destruct (N.eqb_spec cla CLA) as [->|Nc].
  2: { assert (Hin' : In (OResp b s) [resp SW_CLA_NOT_SUPPORTED]).
       { cbn [step] in Hin. unfold apdu_dispatcher in Hin. apply N.eqb_neq in Nc. change (cla =? 0xE0) with (cla =? CLA) in Hin. rewrite Nc in Hin. exact Hin. }
       destruct (resp_in _ _ _ Hin') as [-> ->]. split; [reflexivity|]. left. exact Nc. }
  destruct (known_ins ins) eqn:Kn.
  2: { assert (Hin' : In (OResp b s) [resp SW_INS_NOT_SUPPORTED]).
       { cbn [step] in Hin. unfold apdu_dispatcher in Hin. change (CLA =? 0xE0) with true in Hin. cbn [negb] in Hin. rewrite match_ins in Hin.
         unfold known_ins in Kn. cbn [existsb] in Kn. unfold INS_VERSION, INS_NAME, INS_KEY, INS_ADDRESS, INS_ATTEST, INS_SIGN in Kn.
         repeat (apply orb_false_iff in Kn; destruct Kn as [Kx Kn]; rewrite Kx in Hin; clear Kx). exact Hin. }
       destruct (resp_in _ _ _ Hin') as [-> ->]. split; [reflexivity|]. left. split; [reflexivity|exact Kn]. }
  rewrite step_params in Hin by exact Kn. destruct (params_ok ins p1 p2) eqn:Pa; cbn [negb] in Hin.
  2: { change (In (OResp b s) [resp SW_WRONG_P1P2]) in Hin. destruct (resp_in _ _ _ Hin) as [-> ->]. split; [reflexivity|]. left. cbv [link_error]. auto. }
  destruct (ins =? 1) eqn:I1. { exfalso. destruct Hin as [K|[]]. congruence. }
  destruct (ins =? 2) eqn:I2. { exfalso. destruct Hin as [K|[]]. congruence. }
  assert (Ia : interactive ins = true).
  { unfold known_ins, interactive in *. cbn [existsb] in *. unfold INS_VERSION, INS_NAME in Kn. rewrite I1, I2 in Kn. exact Kn. }
  pose proof (idle_iff E key tr st Henv H) as II.
  destruct (st_busy st) eqn:B.
  { assert (Hin' : In (OResp b s) [resp SW_BUSY]).
    { destruct (ins =? 0x10); [unfold handler_epk in Hin; rewrite B in Hin; exact Hin|]. destruct (ins =? 0x11); [unfold handler_da in Hin; rewrite B in Hin; exact Hin|].
      destruct (ins =? 0x20); [unfold handler_attest in Hin; rewrite B in Hin; exact Hin|]. unfold handler_sign in Hin; rewrite B in Hin; exact Hin. }
    destruct (resp_in _ _ _ Hin') as [-> ->]. split; [reflexivity|]. left. cbv [link_error]. do 3 (split; [auto|]). intro K. apply II in K. discriminate. }
  assert (Idle : on_screen tr = None) by (apply II; reflexivity).
  cut (b = [] /\ request_error E key tr ins p1 p2 data r s). { intros [X Y]. split; [exact X|]. right. auto. }
  assert (Hby : bytes_ok data = true) by apply Hev.
  destruct (N.eqb_spec ins 0x10) as [->|N3].
  { unfold params_ok in Pa. change (16 =? INS_VERSION) with false in Pa. change (16 =? INS_NAME) with false in Pa. change (16 =? INS_KEY) with true in Pa. cbn [orb] in Pa.
    apply andb_true_iff in Pa as [_ P2]. apply N.eqb_eq in P2. subst p2. exact (key_why E key tr st p1 data r b s Henv H Hby B Hin Hs). }
  destruct (N.eqb_spec ins 0x11) as [->|N4].
  { unfold params_ok in Pa. change (17 =? INS_VERSION) with false in Pa. change (17 =? INS_NAME) with false in Pa. change (17 =? INS_KEY) with false in Pa.
    change (17 =? INS_ADDRESS) with true in Pa. cbn [orb] in Pa. apply andb_true_iff in Pa as [P1 _]. exact (address_why E key tr st p1 p2 data r b s Henv H Hby B P1 Hin Hs). }
  destruct (N.eqb_spec ins 0x20) as [->|N5]; [exact (attest_why E key tr st p1 p2 data r b s Henv H Hev B Hin Hs)|].
  assert (ins = INS_SIGN).
  { unfold interactive in Ia. cbn [existsb] in Ia. apply N.eqb_neq in N3, N4, N5. unfold INS_KEY, INS_ADDRESS, INS_ATTEST in Ia. rewrite N3, N4, N5 in Ia. cbn [orb] in Ia.
    rewrite orb_false_r in Ia. apply N.eqb_eq. exact Ia. }
  subst ins. exact (sign_why E key tr st p1 p2 data r b s Henv H Hev B Hin Hs).
Qed.

(** ** The buttons *)

Lemma page_why : forall E key tr st e d i s, env_ok E -> history E key tr st -> has_pages (st_ui st) = true ->
  (e = UiUpper /\ ui_dynamic_step_left (st_dyn st) = (d, Some i) \/ e = UiLower /\ ui_dynamic_step_right (st_dyn st) = (d, Some i)) ->
  page_of E (st_ui st) (st_ctx st) i = Fail s -> s <> SW_UB -> meaning E key tr e s.
Proof.
  intros E key tr st e d i s Henv Hh Hp Hi Pf Hu.
  cut (s = SW_BIP32_FORMATTING_FAILED /\ exists q f pages start body o p t, on_screen tr = Some (q, U_STX_OUTPUT, f, pages) /\
        session_of INS_SIGN tr = Some (start, body) /\ current_output (description body) o /\
        so_dest o = Some (SD_CHANGE p) /\ is_path_text p t /\ (70 <= length t)%nat).
  { destruct Hi as [[-> _]|[-> _]]; intro K; exact K. }
  destruct (page_announced E key tr st e d i Henv Hh Hp Hi) as (q & f & pages & P1 & P2 & P3). rewrite Pf in P3.
  assert (Pin : In (Fail s) pages). { rewrite <- P3. apply nth_In. unfold blen in P2. lia. }
  destruct (st_ui st) eqn:Eu; try discriminate Hp.
  - destruct (shown_output _ _ _ _ _ _ _ Henv Hh P1) as (start & body & pre & o & S1 & S2 & _ & (dest & first & rest & D1 & -> & D2 & D3)).
    destruct Pin as [K|K].
    + subst first. destruct dest as [t| |p]; cbn in D2.
      * exfalso. destruct D2 as [(pk & _ & K)|[(h & _ & K)|(_ & _ & K)]]; eapply address_page_ub; exact K.
      * discriminate.
      * destruct D2 as (full & F1 & [[_ F2]|[F2 F3]]); [discriminate|]. split; [destruct F3; congruence|].
        exists q, f, (Fail s :: rest), start, body, o, p, full. split; [exact P1|]. split; [exact S1|]. split; [exists pre; exact S2|]. auto.
    + exfalso. destruct dest as [t| |p]; [| |subst; destruct K]; destruct D3 as (second & tokens & -> & (x & _ & Hs) & Ht); (destruct K as [K|K]; [congruence|]);
        destruct (token_pages_in _ _ _ _ _ _ Ht K) as (id & y & _ & z & _ & X); discriminate.
  - exfalso. destruct (paged_session _ _ _ _ _ _ _ _ Henv Hh P1 (or_intror eq_refl)) as (g & start & body & ss & X1 & X2 & X3 & X4 & X5 & X6 & X7 & X8 & X9 & X10 & X11).
    destruct (shown_confirm _ _ _ _ _ _ _ Henv Hh P1) as (start' & body' & S1 & (f0 & f1 & f2 & tokens & -> & Hf & (x & _ & Hx) & (y & _ & Hy) & Hk)).
    rewrite X4 in S1. injection S1 as <- <-.
    assert (Zi : i = 0).
    { destruct (N.eq_dec i 0) as [|Ni]; [assumption|]. exfalso. assert (In (Fail s) (f1 :: f2 :: tokens)).
      { rewrite <- P3. replace (N.to_nat i) with (S (N.to_nat (i - 1))) by lia. change (In (nth (N.to_nat (i - 1)) (f1 :: f2 :: tokens) (Fail SW_UB)) (f1 :: f2 :: tokens)). apply nth_In. rewrite !blen_cons in P2. unfold blen in P2. cbn [length]. lia. }
      destruct H as [K|[K|K]]; try congruence.
      destruct (token_pages_in _ _ _ _ _ _ Hk K) as (id & z & _ & X). unfold imbalance in X. destruct (_ =? _)%Z; [congruence|]. destruct X as (n & _ & X). discriminate. }
    subst i. rewrite X1 in Pf. cbn [page_of] in Pf. unfold display_tx_page in Pf. cbv zeta in Pf. change (0 <? 1) with true in Pf. cbv iota in Pf.
    unfold p2pk_show_tx_screen in Pf. change (0 =? 0) with true in Pf. cbn [negb] in Pf.
    unfold sign_phase in X8. rewrite X2 in X8. destruct X8 as (_ & h & _ & (((F1 & F2 & F3) & _) & _)).
    destruct X5 as (p2 & data & r & fl & sk & ch & pk & w & -> & O2 & Ev & Ep & _ & V & Lp & _).
    apply session_suffix in X4 as (pre & -> & _ & _).
    assert (Hh' : history E key ((pre ++ [(Apdu CLA INS_SIGN 1 p2 data r, [OShow U_STX_APPROVE fl []])]) ++ body) st) by (rewrite <- app_assoc; exact Hh).
    destruct (history_prefix _ _ _ _ _ Hh') as (q1 & Hq). apply history_last in Hq as (q0 & Hq0 & _ & Hev & Hst & _).
    pose proof (proj1 (accepts_sign E key pre q0 p2 data r Henv Hq0 Hev)) as A. rewrite Hst in A. destruct (A eq_refl) as (_ & _ & _ & _ & Ap & Al & _ & _ & Fits & _). clear A.
    assert (Lp1 : (1 <= length (start_path data) <= 10)%nat). { split; [|exact Al]. destruct (start_path data); [|cbn; lia]. destruct Ap as (? & ? & ? & ? & Ap & _). discriminate Ap. }
    assert (W : Forall (fun x => x < 2 ^ 32) (start_path data)) by (apply (path_words 1 data); apply Hev).
    assert (F70 : path_fits 70 (start_path data)).
    { destruct Fits as (full & T & [L|(L & a & c & Ec & C & La)]); exists full; (split; [exact T|]); [left; lia|right; split; [exact L|]; exists a, c; split; [exact Ec|split; [exact C|lia]]]. }
    apply (path_fits_iff 70 (start_path data) Lp1 W) in F70 as [t F70].
    assert (Eo : op_path (sg_op g) = start_path data) by congruence. rewrite Eo in Pf. change TEXT_LEN with 70%nat in Pf. rewrite F70 in Pf. discriminate.
Qed.

Theorem meaning_holds : forall E key tr e outs st b s, env_ok E -> history E key (tr ++ [(e, outs)]) st -> In (OResp b s) outs -> s <> SW_OK ->
  b = [] /\ meaning E key tr e s.
Proof.
  intros E key tr e outs st' b s Henv H Hin Hs. apply history_last in H as (st & Hh & Sh & Hev & Hstep & M & D).
  assert (Ap : (exists cla ins p1 p2 data r, e = Apdu cla ins p1 p2 data r) -> b = [] /\ meaning E key tr e s).
  { intros (cla & ins & p1 & p2 & data & r & ->). apply (apdu_why E key tr st cla ins p1 p2 data r b s Henv Hh Hev); [rewrite Hstep; exact Hin|exact Hs]. }
  assert (Busy : st_busy st = true -> on_screen tr <> None).
  { intros B K. apply (idle_iff E key tr st Henv Hh) in K. congruence. }
  assert (Ub : menu_ui (st_ui st) = false -> st_busy st = true) by (intro K; apply busy_ui; assumption).
  assert (Rj : e = UiReject -> s = SW_DENY -> menu_ui (st_ui st) = false -> meaning E key tr e s) by (intros -> -> K; split; [reflexivity|]; apply Busy, Ub, K).
  destruct M; try (apply Ap; repeat eexists; fail); try (exfalso; destruct Hin as [K|[]]; congruence); try (destruct Hin; fail).
  - destruct Hin as [K|[]]. assert (s0 = s) by congruence. assert (b = []) by congruence. subst. destruct e; try (destruct H; fail); [apply Ap; repeat eexists|]. split; [reflexivity|exact H].
  - destruct Hin as [K|[]]. destruct b0; [congruence|]. split; [congruence|]. apply Rj; [reflexivity|congruence|rewrite H; reflexivity].
  - destruct Hin as [K|[]]. destruct b0; [congruence|]. split; [congruence|]. apply Rj; [reflexivity|congruence|rewrite H; reflexivity].
  - destruct Hin as [K|[]]. destruct b0; [congruence|]. split; [congruence|]. apply Rj; [reflexivity|congruence|rewrite H; reflexivity].
  - destruct (screen_inv_holds E key tr st Henv Hh) as [_ Sc]. rewrite (Ub ltac:(rewrite H; reflexivity)) in Sc. destruct Sc as (q & pages & S1 & _). rewrite H in S1.
    destruct (final_wipes E key tr st q (st_flow st) pages Henv Hh S1) as (st1 & outs1 & W1 & _ & W2). rewrite Hstep in W1.
    assert (Eo : [resp s0] = outs1) by congruence. rewrite <- Eo in W2.
    assert (Hin' : In (OResp b s) [OResp [] SW_SCHNORR_SIGNING_FAILED]).
    { destruct W2 as [(sig & W2 & _)|W2]; [exfalso; rewrite W2 in Hin; destruct Hin as [K|[]]; congruence|rewrite <- W2; exact Hin]. }
    destruct Hin' as [K|[]]. split; [congruence|]. split; [congruence|]. eauto.
  - destruct Hin as [K|[]]. split; [congruence|]. apply Rj; [reflexivity|congruence|]. destruct H as [H|H]; [destruct (st_ui st); try discriminate; reflexivity|rewrite H; reflexivity].
  - destruct Hin as [K|[]]. assert (s0 = s) by congruence. assert (b = []) by congruence. subst. split; [reflexivity|]. eapply page_why; eassumption.
Qed.

(** ** Single codes *)

Ltac by_code := repeat match goal with
  | H : False |- _ => destruct H
  | H : _ \/ _ |- _ => destruct H
  | H : _ /\ _ |- _ => destruct H
  | H : exists x, _ |- _ => destruct H
  | H : context [match ?n with _ => _ end] |- _ => destruct n; try discriminate
  end; try discriminate; try contradiction.

Lemma deny_means : forall E key tr e outs st b, env_ok E -> history E key (tr ++ [(e, outs)]) st -> In (OResp b SW_DENY) outs ->
  e = UiReject /\ on_screen tr <> None.
Proof.
  intros E key tr e outs st b Henv H Hin. destruct (meaning_holds _ _ _ _ _ _ _ _ Henv H Hin ltac:(discriminate)) as [_ M].
  destruct e as [cla ins p1 p2 data r| | | | | | | |]; cbn [meaning] in M; try (exfalso; exact M); try discriminate M; try (apply proj1 in M; discriminate M).
  - exfalso. destruct M as [M|(_ & _ & M)]; [exact M|]. unfold request_error in M. cbn [key_error address_error attest_start_error sign_start_error] in M.
    destruct (ins =? INS_KEY); [exact M|]. destruct (ins =? INS_ADDRESS); [exact M|]. destruct (ins =? INS_ATTEST).
    + destruct (p1 =? 1); [exact M|]. destruct M as [[_ M]|(_ & [[_ M]|(id & start & body & _ & [[_ M]|[_ M]])])]; try discriminate M.
      unfold box_error in M. cbn [box_chunk_error box_tokens_error box_registers_error box_frame_error] in M. by_code.
    + destruct (ins =? INS_SIGN); [|exact M]. destruct (p1 =? 1); [exact M|]. destruct M as [[_ M]|(_ & [[_ M]|(id & start & body & _ & [[_ M]|[_ M]])])]; try discriminate M.
      destruct M as [[_ M]|[M|[(_ & _ & M)|(h & _ & M)]]]; [exact M| |discriminate M|].
      * unfold layout_error in M. cbv zeta in M. by_code.
      * cbn [tokens_error frame_error extension_error data_error output_error script_error whole_error output_tokens_error registers_error] in M. by_code.
  - destruct M as [_ M]. auto.
Qed.
Lemma bad_tag_means : forall E key tr e outs st b, env_ok E -> history E key (tr ++ [(e, outs)]) st -> In (OResp b SW_BAD_FRAME_SIGNATURE) outs ->
  exists sid data r start body, e = Apdu CLA INS_SIGN 0x12 sid data r /\ signing sid tr start body /\
    ((4 < frame_ntokens data)%nat \/ frame_tag data <> firstn 16 (e_hmac E key (frame_body data))).
Proof.
  intros E key tr e outs st b Henv H Hin. destruct (meaning_holds _ _ _ _ _ _ _ _ Henv H Hin ltac:(discriminate)) as [_ M].
  destruct e as [cla ins p1 p2 data r| | | | | | | |]; cbn [meaning] in M; try (exfalso; exact M); try discriminate M; try (apply proj1 in M; discriminate M).
  destruct M as [M|(-> & _ & M)]; [destruct M|]. unfold request_error in M. cbn [key_error address_error attest_start_error sign_start_error] in M.
  destruct (ins =? INS_KEY); [destruct M|]. destruct (ins =? INS_ADDRESS); [destruct M|]. destruct (ins =? INS_ATTEST).
  - exfalso. destruct (p1 =? 1); [exact M|]. destruct M as [[_ M]|(_ & [[_ M]|(id & start & body & _ & [[_ M]|[_ M]])])]; try discriminate M.
    unfold box_error in M. cbn [box_chunk_error box_tokens_error box_registers_error box_frame_error] in M. by_code.
  - destruct (N.eqb_spec ins INS_SIGN) as [->|]; [|destruct M]. destruct (p1 =? 1); [destruct M|].
    destruct M as [[_ M]|(_ & [[_ M]|(id & start & body & Sg & [[_ M]|[-> M]])])]; try discriminate M.
    destruct M as [[_ M]|[M|[(_ & _ & M)|(h & _ & M)]]]; [destruct M| |discriminate M|].
    + destruct (N.eqb_spec p1 0x12) as [->|N1].
      * destruct M as [[M _]|[_ M]]; [discriminate M|]. exists id, data, r, start, body. auto.
      * exfalso. unfold layout_error in M. cbv zeta in M. by_code. all: congruence.
    + exfalso. cbn [tokens_error frame_error extension_error data_error output_error script_error whole_error output_tokens_error registers_error] in M. by_code.
Qed.
