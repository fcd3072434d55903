(** What leaves the whole device, and what it can be brought to, with cx_hmac_sha256 failing. *)
From Coq Require Import String.
From Verif Require Import Lib Env TxTable UiFlow P2pkOp App SpecText SpecTree SpecTrace SpecTx SpecApdu SpecScreen SpecPages SpecRequest SpecSign SpecStart
  Moves TraceScreen DispatchProofs SessionProofs SpecRaw Wire SpecWire WireProofs Restart Fault LowApp SpecFault LowProofs FaultProofs
  Buttons SpecButtons ButtonProofs ButtonRun ButtonOut Whole SpecWhole WholeProofs WholeAll SpecHost SpecWallet WalletProofs WalletRun WholeOut SpecGrant WholeGrant
  FaultButtons SpecFaultRun ButtonFault FaultWhole SpecFaultWhole FaultWholeProofs FaultGrant SpecTags TagBase TagProofs TagButtons SpecTagWhole TagWhole.
#[local] Arguments N.eqb : simpl never.
#[local] Arguments N.ltb : simpl never.
#[local] Arguments N.leb : simpl never.
#[local] Arguments N.sub : simpl never.
#[local] Arguments blen : simpl never.
#[local] Arguments num : simpl never.

(** ** Back *)
Lemma right_shown : forall tr tr', Forall2 sent_right tr tr' -> map mo_shown (map snd tr') = map mo_shown (map snd tr).
Proof. intros tr tr' H. induction H as [|x y tr tr' R H IH]; [reflexivity|]. cbn [map]. rewrite IH. destruct R; reflexivity. Qed.
Lemma shown_last_map : forall t t' x, map mo_shown t = map mo_shown t' -> shown_last t x -> shown_last t' x.
Proof.
  intros t t' x Eq (t0 & m & -> & Sh). rewrite map_app in Eq. cbn [map] in Eq. destruct t' as [|m' t' _] using rev_ind; [exfalso; eapply app_cons_not_nil; symmetry; exact Eq|].
  rewrite map_app in Eq. cbn [map] in Eq. apply app_inj_tail in Eq as [_ Eq]. exists t', m'. split; [reflexivity|congruence].
Qed.
Lemma right_shown_last : forall tr tr' k x, Forall2 sent_right tr tr' -> shown_last (map snd tr' ++ k) x -> shown_last (map snd tr ++ k) x.
Proof. intros tr tr' k x H. apply shown_last_map. rewrite !map_app, (right_shown _ _ H). reflexivity. Qed.
Lemma retagged_count : forall e outs e' outs', retagged (e, outs) (e', outs') ->
  length (SpecWhole.packets (map on_the_wire outs)) = length (SpecWhole.packets (map on_the_wire outs')).
Proof. intros e outs e' outs' R. inversion R; reflexivity. Qed.
Lemma right_quiet : forall tr tr', Forall2 sent_right tr tr' -> Forall quiet (map snd tr') -> Forall quiet (map snd tr).
Proof.
  intros tr tr' H. induction H as [|x y tr tr' R H IH]; intros Q; [constructor|]. cbn [map] in *. pose proof (Forall_inv Q) as Q1. apply Forall_inv_tail in Q. constructor; [|exact (IH Q)].
  destruct R; [exact Q1|exact I].
Qed.
Lemma retagged_frame : forall o o', retagged o o' -> SpecWhole.packets (map on_the_wire (snd o')) = [] -> exists p2 data r, fst o' = Apdu CLA INS_SIGN 0x12 p2 data r.
Proof. intros o o' R K. destruct R; cbn [fst snd map on_the_wire SpecWhole.packets flat_map app] in *; try discriminate K. eauto. Qed.
Lemma retagged_command : forall o o', retagged o o' -> exists i p1 p2 data r, fst o' = Apdu CLA i p1 p2 data r /\ (i = INS_ATTEST \/ i = INS_SIGN).
Proof. intros o o' R. destruct R; eexists _, _, _, _, _; (split; [reflexivity|auto]). Qed.
Lemma retagged_packet : forall o o' n p, retagged o o' -> In p (SpecWhole.packets (map on_the_wire (snd o))) -> (0 < n)%nat -> length p = (n + 2)%nat -> skipn n p = [0x90; 0] ->
  exists p', In p' (SpecWhole.packets (map on_the_wire (snd o'))) /\ length p' = (n + 2)%nat /\ skipn n p' = [0x90; 0].
Proof.
  intros o o' n p R Hin Hn Ln Sk. destruct R as [p2 data r a t t' Lt Lt'|p2 a t t' b r outs Lt Lt' La|p2 data data' r s Ns]; cbn [snd map on_the_wire SpecWhole.packets flat_map app] in *.
  - destruct Hin as [<-|[]]. eexists. split; [left; reflexivity|]. unfold packet_of in *. rewrite !app_length in *. cbn [length] in *. split; [lia|].
    rewrite skipn_app, skipn_all2 by (rewrite app_length; lia). rewrite app_length. replace (n - (length a + length t'))%nat with 0%nat by lia. reflexivity.
  - exists p. auto.
  - destruct Hin as [<-|[]]. exfalso. cbn in Ln. lia.
Qed.
(** The question asked by a command that is no frame. *)
Lemma right_read : forall U tr tr' q f pages, Forall2 sent_right tr tr' -> (forall p2 data r, q <> Apdu CLA INS_SIGN 0x12 p2 data r) -> read_all U (map snd tr') q f pages -> read_all U (map snd tr) q f pages.
Proof.
  intros U tr tr' q f pages H Nq (t1 & m & t2 & Eq & Un & Se & Qu & Rd).
  assert (exists a1 F1 a2, tr' = a1 ++ (F1, m) :: a2 /\ map snd a1 = t1 /\ map snd a2 = t2) as (a1 & F1 & a2 & -> & E1 & E2).
  { clear - Eq. revert t1 Eq. induction tr' as [|[F0 y] tr' IH]; intros t1 Eq; [exfalso; eapply app_cons_not_nil; exact Eq|]. destruct t1 as [|z t1]; cbn [map snd app] in Eq.
    - exists [], F0, tr'. injection Eq as -> ->. auto.
    - assert (y = z) as -> by congruence. assert (map snd tr' = t1 ++ m :: t2) as Eq' by congruence. destruct (IH _ Eq') as (a1 & F1 & a2 & -> & <- & <-). exists ((F0, z) :: a1), F1, a2. auto. }
  apply Forall2_app_inv_r in H as (b1 & b2 & H1 & H2 & ->). inversion H2 as [|x y b2' l0 Hx Hr]; subst.
  assert (Ex : exists m', snd x = m' /\ understood (mo_act m') = Host q /\ mo_sent m' = [] /\ mo_shown m' = mo_shown m).
  { inversion Hx as [F0 m0|F0 p r p' r' outs outs' shown Hf Rt]; subst; cbn [snd mo_act mo_sent mo_shown understood] in *; [eauto|]. exfalso.
    destruct (retagged_frame _ _ Rt Se) as (p2 & data & r0 & K). cbn [fst] in K. apply (Nq p2 data r0). congruence. }
  destruct Ex as (m' & Em & Un' & Se' & Sh'). exists (map snd b1), m', (map snd b2'). split; [rewrite map_app; cbn [map]; rewrite Em; reflexivity|]. split; [exact Un'|]. split; [exact Se'|].
  split; [exact (right_quiet _ _ Hr Qu)|].
  assert (Em' : map mo_shown (m :: map snd a2) = map mo_shown (m' :: map snd b2')) by (cbn [map]; rewrite Sh', (right_shown _ _ Hr); reflexivity).
  destruct Rd as [Rd|Rd]; [left; eapply was_shown_back; eassumption|right]. intros oc Ho. destruct (Rd oc Ho) as (c & -> & [-> |K]); eexists; (split; [reflexivity|]); [left; reflexivity|].
  right. intros p0 L. eapply was_shown_back; [exact Em'|]. apply K, L.
Qed.
(** A packet with data and 0x9000. *)
Lemma final_command : forall E key tr st q f pages, env_ok E -> history E key tr st -> on_screen tr = Some (q, U_STX_TX, f, pages) -> exists p2 data r, q = Apdu CLA INS_SIGN 0x20 p2 data r.
Proof.
  intros E key tr st q f pages HE H Hq. destruct (screen_inv_holds _ _ _ _ HE H) as [_ S]. pose proof (history_shape _ _ _ _ H) as Sh. destruct (st_busy st) eqn:B; [|congruence].
  destruct S as (e & pg & Ho & As). assert (Eu : st_ui st = U_STX_TX) by congruence. assert (e = q) as -> by congruence. destruct As as [_ As].
  unfold shape in Sh. rewrite Eu, B in Sh. destruct (st_ctx st) as [|c|c|c|g]; [contradiction|exfalso; destruct Sh as (_ & K & _); discriminate K|exfalso; destruct Sh as (_ & K & _); discriminate K| |].
  - exfalso. destruct Sh as [_ Sh]. destruct (at_state c); destruct Sh as (K1 & K2); discriminate.
  - destruct Sh as [_ Sh]. destruct (sg_state g).
    + exfalso. destruct Sh as (_ & K & _). discriminate K.
    + destruct As as (sub & data & r & -> & _ & [K _] & _). rewrite (K Eu). eauto.
Qed.

(** ** What leaves *)
Theorem signed_untagged_cable : forall E U mem page io key a F m w p, env_ok E -> blen io = 260 -> hgoes_on E U (power_on mem page io key) (a ++ [(F, m)]) w ->
  In p (mo_sent m) -> length p = 58%nat -> skipn 56 p = [0x90; 0] ->
  mo_act m = Presses BOTH /\ shown_last (map snd a) (Some (C_APPROVE, 0%nat)) /\
  exists a1 trs w' l d q q' f pages, Forall2 sent_right a a1 /\ Forall2 replays a1 trs /\ goes_on E U (power_on mem page io key) (concat trs ++ [m]) w' /\
    operated E U key l d /\ tells_of E U key (concat trs) l /\ on_screen (happened l) = Some (q, U_STX_TX, f, pages) /\ same_event q' q /\ read_all U (map snd a) q' f pages.
Proof.
  intros E U mem page io key a F m w p Henv Hio H Hin Ln Sk. destruct (twin _ _ _ _ _ _ Henv Hio _ _ H) as (tr' & w' & R & G & _).
  apply Forall2_app_inv_l in R as (a1 & z & R & Rz & ->). inversion Rz as [|? x ? ? Rx N0]; subst. inversion N0; subst. clear Rz N0.
  inversion Rx as [F0 m0|F0 q1 r1 q2 r2 outs outs' shown Hf Rt]; subst.
  - destruct (signed_at_cable _ _ _ _ _ _ _ _ _ _ _ Henv Hio G Hin Ln Sk) as (Em & Sh & trs & w2 & l & d & q & q' & f & pages & Fr & G2 & O & T & Os & Se & Rd).
    split; [exact Em|]. split; [pose proof (right_shown_last _ _ [] (Some (C_APPROVE, 0%nat)) R) as K; rewrite !app_nil_r in K; exact (K Sh)|].
    exists a1, trs, w2, l, d, q, q', f, pages. do 7 (split; [assumption|]). eapply right_read; [exact R| |exact Rd].
    destruct (final_command _ _ _ _ _ _ _ Henv (operated_history _ _ _ _ _ O) Os) as (p2 & data & r & ->). destruct (same_back _ _ _ _ _ _ _ Se) as (r' & ->). intros p3 data' r3 K. discriminate K.
  - exfalso. cbn [mo_sent] in Hin. destruct (retagged_packet _ _ 56 _ Rt Hin ltac:(lia) Ln Sk) as (p' & Hin' & Ln' & Sk'). 
    destruct (signed_at_cable _ _ _ _ _ _ _ _ _ _ _ Henv Hio G Hin' Ln' Sk') as (K & _). discriminate K.
Qed.
Theorem key_untagged : forall E U mem page io key a F m w p, env_ok E -> blen io = 260 -> hgoes_on E U (power_on mem page io key) (a ++ [(F, m)]) w ->
  In p (mo_sent m) -> length p = 67%nat -> skipn 65 p = [0x90; 0] ->
  (mo_act m = Presses BOTH /\ shown_last (map snd a) (Some (C_APPROVE, 0%nat)) /\
   exists a1 trs l d p1 data r r' f, Forall2 sent_right a a1 /\ Forall2 replays a1 trs /\ operated E U key l d /\ tells_of E U key (concat trs) l /\
     on_screen (happened l) = Some (Apdu CLA INS_KEY p1 0 data r, U_EPK, f, []) /\ read_all U (map snd a) (Apdu CLA INS_KEY p1 0 data r') f []) \/
  exists data r a1 trs l d, understood (mo_act m) = Host (Apdu CLA INS_KEY 2 0 data r) /\ Forall2 sent_right a a1 /\ Forall2 replays a1 trs /\ operated E U key l d /\ tells_of E U key (concat trs) l /\
    known_token (happened l) (Apdu CLA INS_KEY 2 0 data r).
Proof.
  intros E U mem page io key a F m w p Henv Hio H Hin Ln Sk. destruct (twin _ _ _ _ _ _ Henv Hio _ _ H) as (tr' & w' & R & G & _).
  apply Forall2_app_inv_l in R as (a1 & z & R & Rz & ->). inversion Rz as [|? x ? ? Rx N0]; subst. inversion N0; subst. clear Rz N0.
  inversion Rx as [F0 m0|F0 q1 r1 q2 r2 outs outs' shown Hf Rt]; subst.
  - destruct (key_at_cable _ _ _ _ _ _ _ _ _ _ _ Henv Hio G Hin Ln Sk) as [(Em & Sh & trs & l & d & p1 & data & r & r' & f & Fr & O & T & Os & Rd)|(data & r & trs & l & d & Un & K)].
    + left. split; [exact Em|]. split; [pose proof (right_shown_last _ _ [] (Some (C_APPROVE, 0%nat)) R) as K; rewrite !app_nil_r in K; exact (K Sh)|].
      exists a1, trs, l, d, p1, data, r, r', f. do 5 (split; [assumption|]). eapply right_read; [exact R| |exact Rd]. intros p3 data' r3 K. discriminate K.
    + right. exists data, r, a1, trs, l, d. split; [exact Un|]. split; [exact R|exact K].
  - exfalso. cbn [mo_sent] in Hin. destruct (retagged_packet _ _ 65 _ Rt Hin ltac:(lia) Ln Sk) as (p' & Hin' & Ln' & Sk'). destruct (retagged_command _ _ Rt) as (i & p1 & p2 & data & r & Ec & Hi). cbn [fst] in Ec.
    destruct (key_at_cable _ _ _ _ _ _ _ _ _ _ _ Henv Hio G Hin' Ln' Sk') as [(K & _)|(data' & r' & trs & l & d & Un & _)]; [discriminate K|]. cbn [mo_act understood] in Un. assert (i = INS_KEY) as -> by congruence. destruct Hi as [K|K]; discriminate K.
Qed.
Theorem address_untagged : forall E U mem page io key a F m w p, env_ok E -> blen io = 260 -> hgoes_on E U (power_on mem page io key) (a ++ [(F, m)]) w ->
  In p (mo_sent m) -> length p = 40%nat -> skipn 38 p = [0x90; 0] ->
  (mo_act m = Presses BOTH /\ shown_last (map snd a) (Some (C_APPROVE, 0%nat)) /\
   exists a1 trs l d p2 data r r' f, Forall2 sent_right a a1 /\ Forall2 replays a1 trs /\ operated E U key l d /\ tells_of E U key (concat trs) l /\
     on_screen (happened l) = Some (Apdu CLA INS_ADDRESS 1 p2 data r, U_DA, f, []) /\ read_all U (map snd a) (Apdu CLA INS_ADDRESS 1 p2 data r') f []) \/
  exists data r a1 trs l d, understood (mo_act m) = Host (Apdu CLA INS_ADDRESS 1 2 data r) /\ Forall2 sent_right a a1 /\ Forall2 replays a1 trs /\ operated E U key l d /\ tells_of E U key (concat trs) l /\
    known_token (happened l) (Apdu CLA INS_ADDRESS 1 2 data r).
Proof.
  intros E U mem page io key a F m w p Henv Hio H Hin Ln Sk. destruct (twin _ _ _ _ _ _ Henv Hio _ _ H) as (tr' & w' & R & G & _).
  apply Forall2_app_inv_l in R as (a1 & z & R & Rz & ->). inversion Rz as [|? x ? ? Rx N0]; subst. inversion N0; subst. clear Rz N0.
  inversion Rx as [F0 m0|F0 q1 r1 q2 r2 outs outs' shown Hf Rt]; subst.
  - destruct (address_at_cable _ _ _ _ _ _ _ _ _ _ _ Henv Hio G Hin Ln Sk) as [(Em & Sh & trs & l & d & p1 & data & r & r' & f & Fr & O & T & Os & Rd)|(data & r & trs & l & d & Un & K)].
    + left. split; [exact Em|]. split; [pose proof (right_shown_last _ _ [] (Some (C_APPROVE, 0%nat)) R) as K; rewrite !app_nil_r in K; exact (K Sh)|].
      exists a1, trs, l, d, p1, data, r, r', f. do 5 (split; [assumption|]). eapply right_read; [exact R| |exact Rd]. intros p3 data' r3 K. discriminate K.
    + right. exists data, r, a1, trs, l, d. split; [exact Un|]. split; [exact R|exact K].
  - exfalso. cbn [mo_sent] in Hin. destruct (retagged_packet _ _ 38 _ Rt Hin ltac:(lia) Ln Sk) as (p' & Hin' & Ln' & Sk'). destruct (retagged_command _ _ Rt) as (i & p1 & p2 & data & r & Ec & Hi). cbn [fst] in Ec.
    destruct (address_at_cable _ _ _ _ _ _ _ _ _ _ _ Henv Hio G Hin' Ln' Sk') as [(K & _)|(data' & r' & trs & l & d & Un & _)]; [discriminate K|]. cbn [mo_act understood] in Un. assert (i = INS_ADDRESS) as -> by congruence. destruct Hi as [K|K]; discriminate K.
Qed.

(** ** Afterwards *)
Lemma hbring : forall E U mem page io key tr w, env_ok E -> blen io = 260 -> hgoes_on E U (power_on mem page io key) tr w -> ~ dead E U (wh_dev w) ->
  exists t w1, goes_on E U (power_on mem page io key) t w1 /\ ~ dead E U (wh_dev w1) /\ (forall k x, shown_last (t ++ k) x <-> shown_last (map snd tr ++ k) x) /\
    forall k w2, goes_on E U (power_on mem page io key) (t ++ k) w2 -> exists w', goes_on E U w k w'.
Proof.
  intros E U mem page io key tr w Henv Hio H Nd. destruct (twin _ _ _ _ _ _ Henv Hio _ _ H) as (tr' & w' & R & Hf & Ed & Lw).
  destruct (replay _ _ _ _ _ _ Henv Hio _ _ Hf) as (trs & w1 & l & d & Fr & S & A & _). rewrite Ed in A. pose proof S as (G & O & A1 & _).
  exists (concat trs), w1. split; [exact G|]. split; [|split].
  - intros D. apply Nd. destruct (dead_whole _ _ _ _ _ _ Henv O A1 D) as [(i & q & P)|P]; [apply (dead_place E U _ i q); left|apply (dead_place E U _ 0 0); right]; rewrite (akin_at _ _ A); exact P.
  - intros k x. rewrite <- (shown_same _ _ k x Fr). split; apply shown_last_map; rewrite !map_app, (right_shown _ _ R); reflexivity.
  - intros k w2 G2. destruct (go_along _ _ _ _ _ _ _ _ _ _ _ _ _ Henv Hio S G2 A Lw) as (w3 & _ & _ & Gw & _). eauto.
Qed.
Theorem serves_untagged : forall E U mem page io key tr w p r, env_ok E -> blen io = 260 -> hgoes_on E U (power_on mem page io key) tr w -> ~ dead E U (wh_dev w) ->
  tx_fits E (pl_tx p) -> act_ok (Arrives (opening p) r) -> sign_request_ok E (pl_p2 p) (pl_start p) r ->
  exists tr1 tr2 w2 s, goes_on E U w (tr1 ++ tr2) w2 /\ Forall (fun m => exists b, mo_act m = Presses b) tr1 /\
    talks E p (map snd tr ++ tr1) tr2 s false /\ good_end E p tr2 s.
Proof.
  intros E U mem page io key tr w p r Henv Hio H Nd Fit Ro Rq. destruct (hbring _ _ _ _ _ _ _ _ Henv Hio H Nd) as (t & w1 & G & Nd1 & Sh & Br).
  destruct (serves _ _ _ _ _ _ _ _ _ _ Henv Hio G Nd1 Fit Ro Rq) as (tr1 & tr2 & w2 & s & G2 & Fp & Ta & Ge). destruct (Br _ _ G2) as (w' & Gw).
  exists tr1, tr2, w', s. split; [exact Gw|]. split; [exact Fp|]. split; [|exact Ge]. eapply talks_same; [|exact Ta]. intros k x K. rewrite <- app_assoc in K |- *. apply Sh. exact K.
Qed.
Theorem key_after_untagged : forall E U mem page io key tr w p1 data r, env_ok E -> blen io = 260 -> hgoes_on E U (power_on mem page io key) tr w -> ~ dead E U (wh_dev w) ->
  act_ok (Arrives (speak INS_KEY p1 0 data) r) -> key_request_ok E [] p1 0 data r ->
  exists tr1 tr2 w2 b, goes_on E U w (tr1 ++ tr2) w2 /\ Forall (fun m => exists b, mo_act m = Presses b) tr1 /\
    exported_key E (key_path data) b /\
    (p1 = 2 /\ answered_at_once (speak INS_KEY p1 0 data) r (packet_of b SW_OK) tr2 \/
     exists t, is_path_text (key_path data) t /\
       answered_when_read (speak INS_KEY p1 0 data) r (packet_of b SW_OK)
         ([C_INFO (str "Ext PubKey Export"); C_TEXT (str "Path") t] ++ token_cards (token_of (Apdu CLA INS_KEY p1 0 data r))) tr2).
Proof.
  intros E U mem page io key tr w p1 data r Henv Hio H Nd Ra Rq. destruct (hbring _ _ _ _ _ _ _ _ Henv Hio H Nd) as (t & w1 & G & Nd1 & _ & Br).
  destruct (key_granted _ _ _ _ _ _ _ _ _ _ _ Henv Hio G Nd1 Ra Rq) as (tr1 & tr2 & w2 & b & G2 & K). destruct (Br _ _ G2) as (w' & Gw). exists tr1, tr2, w', b. split; [exact Gw|exact K].
Qed.
Theorem address_after_untagged : forall E U mem page io key tr w p1 p2 data r, env_ok E -> blen io = 260 -> hgoes_on E U (power_on mem page io key) tr w -> ~ dead E U (wh_dev w) ->
  act_ok (Arrives (speak INS_ADDRESS p1 p2 data) r) -> address_request_ok E [] p1 p2 data r ->
  exists tr1 tr2 w2 b, goes_on E U w (tr1 ++ tr2) w2 /\ Forall (fun m => exists b, mo_act m = Presses b) tr1 /\
    address_at E (address_network data) (address_path data) b /\
    (p1 = 1 /\ p2 = 2 /\ answered_at_once (speak INS_ADDRESS p1 p2 data) r (packet_of b SW_OK) tr2 \/
     exists t a, path_shown 60 (address_path data) t /\ is_base58 b a /\
       answered_when_read (speak INS_ADDRESS p1 p2 data) r (packet_of (if p1 =? 1 then b else []) SW_OK)
         ([C_INFO (str (if p1 =? 1 then "Confirm Send Address" else "Confirm Address")); C_TEXT (str "Path") t] ++ (if p1 =? 1 then [] else [C_TEXT (str "Address") a]) ++
          token_cards (token_of (Apdu CLA INS_ADDRESS p1 p2 data r))) tr2).
Proof.
  intros E U mem page io key tr w p1 p2 data r Henv Hio H Nd Ra Rq. destruct (hbring _ _ _ _ _ _ _ _ Henv Hio H Nd) as (t & w1 & G & Nd1 & _ & Br).
  destruct (address_granted _ _ _ _ _ _ _ _ _ _ _ _ Henv Hio G Nd1 Ra Rq) as (tr1 & tr2 & w2 & b & G2 & K). destruct (Br _ _ G2) as (w' & Gw). exists tr1, tr2, w', b. split; [exact Gw|exact K].
Qed.
