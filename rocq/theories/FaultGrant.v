(** Keys and addresses at the cable, with failing calls. *)
From Coq Require Import String.
From Verif Require Import Lib Env TxTable UiFlow P2pkOp App SpecText SpecTree SpecTrace SpecTx SpecApdu SpecScreen SpecPages SpecRequest SpecSign SpecStart
  SpecRaw Wire SpecWire Restart Fault LowApp SpecFault Buttons SpecButtons ButtonProofs Whole SpecWhole WholeProofs WholeAll SpecWallet WalletRun SpecGrant WholeGrant
  FaultWhole SpecFaultWhole FaultWholeProofs.
#[local] Arguments N.eqb : simpl never.
#[local] Arguments N.ltb : simpl never.
#[local] Arguments N.leb : simpl never.
#[local] Arguments N.sub : simpl never.
#[local] Arguments blen : simpl never.
#[local] Arguments num : simpl never.

(** A packet with data was sent in a run without failures, too. *)
Lemma sent_clean : forall E U mem page io key a F m w p, env_ok E -> blen io = 260 -> fgoes_on E U (power_on mem page io key) (a ++ [(F, m)]) w -> In p (mo_sent m) -> (2 < length p)%nat ->
  exists trs m' w', Forall2 replays a trs /\ goes_on E U (power_on mem page io key) (concat trs ++ [m']) w' /\ mo_sent m' = mo_sent m /\
    (m' = m \/ exists p r p' r', mo_act m = Arrives p r /\ mo_act m' = Arrives p' r' /\ same_event (command_of p r) (command_of p' r')).
Proof.
  intros E U mem page io key a F m w p Henv Hio H Hin Ln. destruct (replayed _ _ _ _ _ _ Henv Hio _ _ H) as (trs & w' & Fr & G).
  apply Forall2_app_inv_l in Fr as (t1 & t2 & F1 & F2 & ->). inversion F2 as [|? ms ? ? R N0]; subst. inversion N0; subst. clear F2 N0. rewrite concat_app in G. cbn [concat] in G. rewrite app_nil_r in G.
  exists t1. inversion R as [F0 m0|F0 q1 r1 q2 r2 sent sh Hc Se|F0 q1 r1 q2 r2 s s' sh|F0 b s ms0 sh]; subst.
  - exists m, w'. auto.
  - eexists _, w'. split; [exact F1|]. split; [exact G|]. split; [reflexivity|]. right. eexists _, _, _, _. split; [reflexivity|]. split; [reflexivity|exact Se].
  - exfalso. destruct Hin as [<-|[]]. cbn in Ln. lia.
  - exfalso. destruct Hin as [<-|[]]. cbn in Ln. lia.
Qed.
Lemma run_life : forall E U mem page io key t m w, blen io = 260 -> goes_on E U (power_on mem page io key) (t ++ [m]) w -> lifetime E U ([] ++ [(key, t ++ [m])]).
Proof. intros E U mem page io key t m w Hio G. eapply lifetime_run; [constructor|exact Hio|exact G]. Qed.
Lemma same_back : forall e c i p1 p2 data r, same_event e (Apdu c i p1 p2 data r) -> exists r', e = Apdu c i p1 p2 data r'.
Proof. intros e c i p1 p2 data r H. inversion H; subst; eauto. Qed.
Lemma approved_back : forall U a trs q f pages, Forall2 replays a trs -> shown_last (concat trs) (Some (C_APPROVE, 0%nat)) -> read_all U (concat trs) q f pages ->
  shown_last (map snd a) (Some (C_APPROVE, 0%nat)) /\ exists q', same_event q' q /\ read_all U (map snd a) q' f pages.
Proof.
  intros U a trs q f pages F1 Sh Rd. split; [pose proof (shown_same _ _ [] (Some (C_APPROVE, 0%nat)) F1) as K; rewrite !app_nil_r in K; apply K; exact Sh|]. eapply read_back; eassumption.
Qed.

Theorem key_at_cable : forall E U mem page io key a F m w p, env_ok E -> blen io = 260 -> fgoes_on E U (power_on mem page io key) (a ++ [(F, m)]) w ->
  In p (mo_sent m) -> length p = 67%nat -> skipn 65 p = [0x90; 0] ->
  (mo_act m = Presses BOTH /\ shown_last (map snd a) (Some (C_APPROVE, 0%nat)) /\
   exists trs l d p1 data r r' f, Forall2 replays a trs /\ operated E U key l d /\ tells_of E U key (concat trs) l /\
     on_screen (happened l) = Some (Apdu CLA INS_KEY p1 0 data r, U_EPK, f, []) /\ read_all U (map snd a) (Apdu CLA INS_KEY p1 0 data r') f []) \/
  exists data r trs l d, understood (mo_act m) = Host (Apdu CLA INS_KEY 2 0 data r) /\ Forall2 replays a trs /\ operated E U key l d /\ tells_of E U key (concat trs) l /\
    known_token (happened l) (Apdu CLA INS_KEY 2 0 data r).
Proof.
  intros E U mem page io key a F m w p Henv Hio H Hin Ln Sk. destruct (sent_clean _ _ _ _ _ _ _ _ _ _ _ Henv Hio H Hin) as (trs & m' & w' & F1 & G & Es & Sm); [lia|]. rewrite <- Es in Hin.
  pose proof (run_life _ _ _ _ _ _ _ _ _ Hio G) as Lf. destruct (begins_told _ _ _ _ _ _ Henv Lf (or_introl eq_refl)) as (l & d & O & T & _).
  destruct (key_told _ _ _ _ _ _ _ _ _ _ Henv Lf (or_introl eq_refl) O T Hin Ln Sk) as [(Em & Sh & p1 & data & r & f & Ho & Rd)|(data & r & Un & Kn)].
  - left. destruct (approved_back _ _ _ _ _ _ F1 Sh Rd) as (Sh' & q' & Se & Rd'). destruct (same_back _ _ _ _ _ _ _ Se) as (r' & ->).
    split; [destruct Sm as [<-|(p2 & r2 & p3 & r3 & _ & K & _)]; [exact Em|congruence]|]. split; [exact Sh'|]. exists trs, l, d, p1, data, r, r', f. auto.
  - right. destruct Sm as [->|(p2 & r2 & p3 & r3 & K1 & K2 & Se)]; [exists data, r, trs, l, d; auto|]. rewrite K2 in Un. cbn [understood] in Un. assert (command_of p3 r3 = Apdu CLA INS_KEY 2 0 data r) as Ec by congruence.
    rewrite Ec in Se. destruct (same_back _ _ _ _ _ _ _ Se) as (r' & Er). exists data, r', trs, l, d. split; [rewrite K1; cbn [understood]; congruence|]. auto.
Qed.
Theorem address_at_cable : forall E U mem page io key a F m w p, env_ok E -> blen io = 260 -> fgoes_on E U (power_on mem page io key) (a ++ [(F, m)]) w ->
  In p (mo_sent m) -> length p = 40%nat -> skipn 38 p = [0x90; 0] ->
  (mo_act m = Presses BOTH /\ shown_last (map snd a) (Some (C_APPROVE, 0%nat)) /\
   exists trs l d p2 data r r' f, Forall2 replays a trs /\ operated E U key l d /\ tells_of E U key (concat trs) l /\
     on_screen (happened l) = Some (Apdu CLA INS_ADDRESS 1 p2 data r, U_DA, f, []) /\ read_all U (map snd a) (Apdu CLA INS_ADDRESS 1 p2 data r') f []) \/
  exists data r trs l d, understood (mo_act m) = Host (Apdu CLA INS_ADDRESS 1 2 data r) /\ Forall2 replays a trs /\ operated E U key l d /\ tells_of E U key (concat trs) l /\
    known_token (happened l) (Apdu CLA INS_ADDRESS 1 2 data r).
Proof.
  intros E U mem page io key a F m w p Henv Hio H Hin Ln Sk. destruct (sent_clean _ _ _ _ _ _ _ _ _ _ _ Henv Hio H Hin) as (trs & m' & w' & F1 & G & Es & Sm); [lia|]. rewrite <- Es in Hin.
  pose proof (run_life _ _ _ _ _ _ _ _ _ Hio G) as Lf. destruct (begins_told _ _ _ _ _ _ Henv Lf (or_introl eq_refl)) as (l & d & O & T & _).
  destruct (address_told _ _ _ _ _ _ _ _ _ _ Henv Lf (or_introl eq_refl) O T Hin Ln Sk) as [(Em & Sh & p1 & data & r & f & Ho & Rd)|(data & r & Un & Kn)].
  - left. destruct (approved_back _ _ _ _ _ _ F1 Sh Rd) as (Sh' & q' & Se & Rd'). destruct (same_back _ _ _ _ _ _ _ Se) as (r' & ->).
    split; [destruct Sm as [<-|(p2 & r2 & p3 & r3 & _ & K & _)]; [exact Em|congruence]|]. split; [exact Sh'|]. exists trs, l, d, p1, data, r, r', f. auto.
  - right. destruct Sm as [->|(p2 & r2 & p3 & r3 & K1 & K2 & Se)]; [exists data, r, trs, l, d; auto|]. rewrite K2 in Un. cbn [understood] in Un. assert (command_of p3 r3 = Apdu CLA INS_ADDRESS 1 2 data r) as Ec by congruence.
    rewrite Ec in Se. destruct (same_back _ _ _ _ _ _ _ Se) as (r' & Er). exists data, r', trs, l, d. split; [rewrite K1; cbn [understood]; congruence|]. auto.
Qed.

(** What a device without failures can be brought to, this one can. *)
Lemma bring : forall E U mem page io key tr w, env_ok E -> blen io = 260 -> fgoes_on E U (power_on mem page io key) tr w -> ~ dead E U (wh_dev w) ->
  exists t w1, goes_on E U (power_on mem page io key) t w1 /\ ~ dead E U (wh_dev w1) /\ forall k w2, goes_on E U (power_on mem page io key) (t ++ k) w2 -> exists w', goes_on E U w k w'.
Proof.
  intros E U mem page io key tr w Henv Hio H Nd. destruct (replay _ _ _ _ _ _ Henv Hio _ _ H) as (trs & w1 & l & d & Fr & S & A & Lw). pose proof S as (G & O & A1 & _).
  exists (concat trs), w1. split; [exact G|]. split.
  - intros D. apply Nd. destruct (dead_whole _ _ _ _ _ _ Henv O A1 D) as [(i & q & P)|P]; [apply (dead_place E U _ i q); left|apply (dead_place E U _ 0 0); right]; rewrite (akin_at _ _ A); exact P.
  - intros k w2 G2. destruct (go_along _ _ _ _ _ _ _ _ _ _ _ _ _ Henv Hio S G2 A Lw) as (w' & _ & _ & Gw & _). eauto.
Qed.
Theorem key_after : forall E U mem page io key tr w p1 data r, env_ok E -> blen io = 260 -> fgoes_on E U (power_on mem page io key) tr w -> ~ dead E U (wh_dev w) ->
  act_ok (Arrives (speak INS_KEY p1 0 data) r) -> key_request_ok E [] p1 0 data r ->
  exists tr1 tr2 w2 b, goes_on E U w (tr1 ++ tr2) w2 /\ Forall (fun m => exists b, mo_act m = Presses b) tr1 /\
    exported_key E (key_path data) b /\
    (p1 = 2 /\ answered_at_once (speak INS_KEY p1 0 data) r (packet_of b SW_OK) tr2 \/
     exists t, is_path_text (key_path data) t /\
       answered_when_read (speak INS_KEY p1 0 data) r (packet_of b SW_OK)
         ([C_INFO (str "Ext PubKey Export"); C_TEXT (str "Path") t] ++ token_cards (token_of (Apdu CLA INS_KEY p1 0 data r))) tr2).
Proof.
  intros E U mem page io key tr w p1 data r Henv Hio H Nd Ra Rq. destruct (bring _ _ _ _ _ _ _ _ Henv Hio H Nd) as (t & w1 & G & Nd1 & Br).
  destruct (key_granted _ _ _ _ _ _ _ _ _ _ _ Henv Hio G Nd1 Ra Rq) as (tr1 & tr2 & w2 & b & G2 & K). destruct (Br _ _ G2) as (w' & Gw). exists tr1, tr2, w', b. split; [exact Gw|exact K].
Qed.
Theorem address_after : forall E U mem page io key tr w p1 p2 data r, env_ok E -> blen io = 260 -> fgoes_on E U (power_on mem page io key) tr w -> ~ dead E U (wh_dev w) ->
  act_ok (Arrives (speak INS_ADDRESS p1 p2 data) r) -> address_request_ok E [] p1 p2 data r ->
  exists tr1 tr2 w2 b, goes_on E U w (tr1 ++ tr2) w2 /\ Forall (fun m => exists b, mo_act m = Presses b) tr1 /\
    address_at E (address_network data) (address_path data) b /\
    (p1 = 1 /\ p2 = 2 /\ answered_at_once (speak INS_ADDRESS p1 p2 data) r (packet_of b SW_OK) tr2 \/
     exists t a, path_shown 60 (address_path data) t /\ is_base58 b a /\
       answered_when_read (speak INS_ADDRESS p1 p2 data) r (packet_of (if p1 =? 1 then b else []) SW_OK)
         ([C_INFO (str (if p1 =? 1 then "Confirm Send Address" else "Confirm Address")); C_TEXT (str "Path") t] ++ (if p1 =? 1 then [] else [C_TEXT (str "Address") a]) ++
          token_cards (token_of (Apdu CLA INS_ADDRESS p1 p2 data r))) tr2).
Proof.
  intros E U mem page io key tr w p1 p2 data r Henv Hio H Nd Ra Rq. destruct (bring _ _ _ _ _ _ _ _ Henv Hio H Nd) as (t & w1 & G & Nd1 & Br).
  destruct (address_granted _ _ _ _ _ _ _ _ _ _ _ _ Henv Hio G Nd1 Ra Rq) as (tr1 & tr2 & w2 & b & G2 & K). destruct (Br _ _ G2) as (w' & Gw). exists tr1, tr2, w', b. split; [exact Gw|exact K].
Qed.
