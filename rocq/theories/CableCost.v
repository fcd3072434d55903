(** What a signature that leaves on the cable can cost, while calls fail and on any memory left
    over. *)
From Verif Require Import Lib Base Env UiFlow P2pkOp App SpecApdu SpecTree SpecTrace SpecTx SpecAmounts SpecSign SpecScreen SpecRules SpecScript SpecNode SpecCost Moves CostProofs TraceScreen DispatchProofs
  SpecRaw Wire SpecWire WireProofs Restart Fault LowApp SpecFault LowProofs FaultProofs FaultCost
  Buttons SpecButtons ButtonProofs ButtonRun Whole SpecWhole WholeProofs WholeAll FaultButtons SpecFaultRun ButtonFault HandCost FaultWhole SpecFaultWhole FaultWholeProofs SpecCableCost.
#[local] Arguments N.eqb : simpl never.
#[local] Arguments blen : simpl never.
#[local] Arguments num : simpl never.

Lemma run_does : forall E U w0 tr w, blen (wh_io w0) = 260 -> fgoes_on E U w0 tr w -> (forall tr l w, fdoes E U w0 tr l w -> blen (wh_io w) = 260) -> exists l, fdoes E U w0 tr l w.
Proof.
  intros E U w0 tr w H0 H HB. induction H as [|tr w F a w1 lw H IH HF HM Ha Hs Nd Nu]; [exists []; constructor|].
  destruct IH as (l & D). destruct (fwhole_operate _ _ _ _ _ _ _ Ha (HB _ _ _ D) Hs) as (os & io0 & _ & Ho & _). exists (l ++ [(F, (understood a, os))]). econstructor; eassumption.
Qed.
Lemma does_run : forall E U w0 tr l w, fdoes E U w0 tr l w -> fgoes_on E U w0 tr w.
Proof. intros E U w0 tr l w H. induction H; [constructor|econstructor; eassumption]. Qed.

(** One event, on a state near one of a history. *)
Lemma near_echo : forall E F key tr st0 st e st' outs, env_ok E -> stack_ok F -> hmac_works F -> event_ok e -> history E key tr st0 -> near st st0 -> fstep E F st e = (st', outs) -> ~ In ODiverge outs ->
  exists o' st0', echo (e, outs) o' /\ history E key (tr ++ [o']) st0' /\ near st' st0'.
Proof.
  intros E F key tr st0 st e st' outs HE HF HM He Hh Nr Hs Hd.
  destruct (fstep_cases E F HE HF HM st e He (near_shape _ _ Nr (history_shape _ _ _ _ Hh)) (near_range _ _ _ Nr (reachable_range _ _ _ _ HE Hh))) as [W|Fl].
  - destruct W as (e' & Se & Sc & Ke). rewrite Hs in Ke. pose proof (step_near E _ _ e' Nr) as [Q1 Q2]. rewrite <- Ke in Q1, Q2. cbn [fst snd] in Q1, Q2. 
    exists (e', outs), (fst (step E st0 e')). split; [apply ec_same; exact Se|]. split; [|exact Q2].
    eapply history_step; [exact Hh|eapply same_event_ok; eassumption|rewrite Q1; apply surjective_pairing|exact Hd].
  - destruct Fl as (Hc & s & e' & s' & Fs & Ko & Ke & Kst & Ns & _ & Bu). rewrite Hs in *. cbn [fst snd] in *. subst outs.
    pose proof (step_near E _ _ e' Nr) as [Q1 Q2]. rewrite Kst in Q1, Q2. cbn [fst snd] in Q1, Q2.
    exists (e', [OResp [] s']), (fst (step E st0 e')). split; [|split; [|exact Q2]].
    + apply ec_refused; [apply fault_not_ok; exact Fs|exact Ns|]. destruct (by_user e); [destruct Bu as [-> _]; reflexivity|symmetry; exact Bu].
    + eapply history_step; [exact Hh|exact Ke|rewrite Q1; apply surjective_pairing|apply resp_diverges].
Qed.
Lemma happened_snoc_f : forall (l : list fdeed) F a os, happened (map snd (l ++ [(F, (a, os))])) = happened (map snd l) ++ os.
Proof. intros. rewrite map_app. cbn [map snd]. apply happened_snoc. Qed.

Section Cable.
  Variables (E : env) (U : ux) (mem : state) (page : text * text) (io key : bytes).
  Hypothesis Henv : env_ok E.
  Hypothesis Hio : blen io = 260.
  Notation w0 := (power_on mem page io key).
  Definition follows (l : list fdeed) (w : whole) : Prop := exists tr' st0, Forall2 echo (happened (map snd l)) tr' /\ history E key tr' st0 /\ near (dv_st (wh_dev w)) st0 /\ blen (wh_io w) = 260.
  Lemma does_follows : forall tr l w, fdoes E U w0 tr l w -> follows l w /\ forall F m x, tr <> [] -> last tr (F, m) = x -> mo_sent (snd x) = answer_packets (snd (last l (F, (Press BOTH, [])))).
  Proof.
    intros tr l w H. induction H as [|tr l w F a w1 lw os H [IH _] HF HM Ha Hs Nd Nu Hop].
    - split; [|intros F m x K; congruence]. exists [], (init key). split; [constructor|]. split; [constructor|]. split; [apply near_idle; left; reflexivity|exact Hio].
    - destruct IH as (tr' & st0 & Hm & Hh & Nr & Lio). destruct (fwhole_operate _ _ _ _ _ _ _ Ha Lio Hs) as (os' & io0 & L0 & Ho & Hsend).
      assert (os' = os) as -> by congruence. clear Ho.
      assert (So : sound os).
      { assert (X : forall o, (forall b s, o <> OResp b s) -> ~ In (Screen o) lw -> forall x, In x os -> ~ In o (snd x)).
        { intros o No N0 x Hx K. apply N0. pose proof (send_screen o (concat (map snd os)) io0 No) as Q. rewrite Hsend in Q. cbn [snd] in Q. apply Q. apply in_concat. exists (snd x). split; [apply in_map; exact Hx|exact K]. }
        apply Forall_forall. intros x Hx. split; [apply (X ODiverge ltac:(discriminate) Nd _ Hx)|apply (X OUb ltac:(discriminate) Nu _ Hx)]. }
      assert (One : (os = [] /\ dv_st (wh_dev w1) = dv_st (wh_dev w)) \/ exists e outs, os = [(e, outs)] /\ event_ok e /\ fstep E F (dv_st (wh_dev w)) e = (dv_st (wh_dev w1), outs)).
      { destruct (understood a) as [e|b] eqn:Un; cbn [foperate] in Hop.
        - apply receive_by_shape in Hop as [(_ & -> & ->)|(outs & _ & -> & S & _)]; [left; auto|]. right. exists e, outs. split; [reflexivity|]. split; [|exact S].
          pose proof (understood_ok _ Ha) as K. rewrite Un in K. apply K.
        - destruct (press_once U (wh_dev w) b) as [(d1 & K & S)|(e & at_ & Hu & _ & K & _)].
          + rewrite K in Hop. injection Hop as <- <-. left. auto.
          + destruct (K (fstep E F)) as (d1 & K1 & S & _). rewrite K1 in Hop. injection Hop as <- <-. right. exists e, (snd (fstep E F (dv_st (wh_dev w)) e)). split; [reflexivity|].
            split; [apply user_event_ok; exact Hu|]. rewrite S. apply surjective_pairing. }
      assert (G : (exists tr1 st1, Forall2 echo (happened (map snd (l ++ [(F, (understood a, os))]))) tr1 /\ history E key tr1 st1 /\ near (dv_st (wh_dev w1)) st1) /\
                  (forall b s, In (OResp b s) (concat (map snd os)) -> (length b + 2 <= 260)%nat)).
      { rewrite happened_snoc_f. destruct One as [[-> Es]|(e & outs & -> & He & Hf)].
        - split; [|intros b s []]. exists tr', st0. rewrite app_nil_r, Es. auto.
        - pose proof (Forall_inv So) as [Dv _]. cbn [snd] in Dv. destruct (near_echo _ _ _ _ _ _ _ _ _ Henv HF HM He Hh Nr Hf Dv) as (o' & st1 & Ec & H1 & N1). split.
          + exists (tr' ++ [o']), st1. split; [apply Forall2_app; [exact Hm|constructor; [exact Ec|constructor]]|auto].
          + cbn [map snd concat]. rewrite app_nil_r. intros b s K. inversion Ec as [e0 e' outs0 Se|e0 e' s0 s' Hs0 Hs' Bu]; subst.
            * apply (proj2 (answers _ _ _ _ _ _ Henv H1) b s K).
            * destruct K as [K|[]]. assert (b = []) as -> by congruence. cbn [length]. lia. }
      destruct G as [(tr1 & st1 & G1 & G2 & G3) Sz]. destruct (send_all_ok _ io0 L0 Sz) as (io' & L' & Q). rewrite Hsend in Q. assert (wh_io w1 = io') as E1 by congruence.
      assert (lw = map on_the_wire (concat (map snd os))) as -> by congruence. split.
      + exists tr1, st1. do 3 (split; [assumption|]). rewrite E1. exact L'.
      + intros F0 m x _ <-. rewrite !last_last. reflexivity.
  Qed.
  Lemma does_always : forall tr w, fgoes_on E U w0 tr w -> exists l, fdoes E U w0 tr l w.
  Proof. intros tr w H. eapply run_does; [exact Hio|exact H|]. intros t l w1 D. destruct (does_follows _ _ _ D) as [(_ & _ & _ & _ & _ & L) _]. exact L. Qed.
End Cable.

Lemma does_inv : forall E U w0 tr l w', fdoes E U w0 tr l w' -> (tr = [] /\ l = [] /\ w' = w0) \/
  exists tr0 l0 w F a out os, tr = tr0 ++ [(F, mk_moment a (SpecWhole.packets out) (displayed (wh_dev w')))] /\ l = l0 ++ [(F, (understood a, os))] /\ fdoes E U w0 tr0 l0 w /\
    fwhole_step E F U w a = (w', out) /\ foperate E F U (wh_dev w) (understood a) = (wh_dev w', os).
Proof. intros E U w0 tr l w' H. destruct H as [|tr l w F a w1 out os H HF HM Ha Hs Nd Nu Hop]; [left; auto|]. right. exists tr, l, w, F, a, out, os. auto 10. Qed.
Lemma does_det : forall E U w0 tr l w, fdoes E U w0 tr l w -> forall l' w', fdoes E U w0 tr l' w' -> l' = l /\ w' = w.
Proof.
  intros E U w0 tr l w H. induction H as [|tr l w F a w1 lw os H IH HF HM Ha Hs Nd Nu Hop]; intros l' w' H'; apply does_inv in H' as [(K & -> & ->)|(tr0 & l0 & w2 & F0 & a0 & lw0 & os0 & K & -> & H0 & Hs0 & Hop0)].
  - auto.
  - exfalso. eapply app_cons_not_nil. exact K.
  - exfalso. eapply app_cons_not_nil. symmetry. exact K.
  - apply app_inj_tail in K as [<- K]. assert (F0 = F) as -> by congruence. assert (a0 = a) as -> by congruence. destruct (IH _ _ H0) as [-> ->]. assert (w' = w1) as -> by congruence. assert (os0 = os) as -> by congruence. auto.
Qed.

Lemma cost_echo : forall E key tr tr' o' st sig G, env_ok E -> Forall2 echo tr tr' -> history E key (tr' ++ [o']) st -> signature o' = Some sig -> no_forgery tr -> readable_grammar G ->
  exists start body e msg, session_of INS_SIGN tr = Some (start, body) /\ same_event (fst start) e /\ signed_message E (e, snd start) msg sig /\
    (Forall (fun x => output_complete x = true) (sx_outputs (description body)) -> readable G (node_tx E (description body)) ->
     forall t bs, readable G t -> n_bytes t = msg -> spends E t bs -> collision_free E key tr bs ->
     exists amount fee roles, cost E tr (start_network (start_data start)) body t bs amount fee roles).
Proof.
  intros E key tr tr' o' st sig G HE Hm Hh Hg' Nf Rg.
  destruct (cost_holds _ _ _ _ _ _ G HE Hh Hg' (echo_forgery _ _ Hm Nf) Rg) as (start' & body' & msg & Ses & Sm & K).
  destruct (echo_session _ _ _ _ _ Hm Ses) as (start & body & Ses0 & Se & Es & Hb). exists start, body, (fst start'), msg. split; [exact Ses0|]. split; [exact Se|].
  split; [rewrite Es; destruct start'; exact Sm|]. rewrite (echo_description _ _ Hb). replace (start_data start) with (start_data start') by (unfold start_data; destruct Se; reflexivity).
  intros Cp Rd t bs Rt Nb Sp Cf. destruct (K Cp Rd t bs Rt Nb Sp) as (amount & fee & roles & C); [intros a b Ha Hin; apply Cf; [eapply echo_attested; eassumption|exact Hin]|].
  exists amount, fee, roles. eapply echo_cost; eassumption.
Qed.
Lemma tokens_echo : forall E key tr tr' o' st sig G, env_ok E -> Forall2 echo tr tr' -> history E key (tr' ++ [o']) st -> signature o' = Some sig -> no_forgery tr -> readable_grammar G ->
  attested_readable E key tr G ->
  exists start body e msg, session_of INS_SIGN tr = Some (start, body) /\ same_event (fst start) e /\ signed_message E (e, snd start) msg sig /\
    (Forall (fun x => output_complete x = true) (sx_outputs (description body)) -> readable G (node_tx E (description body)) ->
     forall t bs, readable G t -> n_bytes t = msg -> spends E t bs -> collision_free E key tr bs -> Forall (readable_on_ledger G) bs ->
     tokens_told E tr t bs).
Proof.
  intros E key tr tr' o' st sig G HE Hm Hh Hg' Nf Rg Ar.
  assert (Ar' : attested_readable E key tr' G).
  { intros a Ha. destruct (Ar a (echo_attested _ _ _ _ _ Hm Ha)) as [K1 K2]. split; [exact K1|]. intros a' Ha'. apply K2. eapply echo_attested; eassumption. }
  destruct (tokens_hold _ _ _ _ _ _ G HE Hh Hg' (echo_forgery _ _ Hm Nf) Rg Ar') as (start' & body' & msg & Ses & Sm & K).
  destruct (echo_session _ _ _ _ _ Hm Ses) as (start & body & Ses0 & Se & Es & Hb). exists start, body, (fst start'), msg. split; [exact Ses0|]. split; [exact Se|].
  split; [rewrite Es; destruct start'; exact Sm|]. rewrite (echo_description _ _ Hb).
  intros Cp Rd t bs Rt Nb Sp Cf Rl. destruct (K Cp Rd t bs Rt Nb Sp) as (q & f & p1 & p2 & p3 & rest & ids & Os & T); [intros a b Ha Hin; apply Cf; [eapply echo_attested; eassumption|exact Hin]|exact Rl|].
  destruct (echo_screen _ _ _ _ _ _ Hm Os) as (q0 & Os0 & _). exists q0, f, p1, p2, p3, rest, ids. split; [exact Os0|exact T].
Qed.

Lemma cable_last : forall E U mem page io key tr F m l x w p, env_ok E -> blen io = 260 -> fdoes E U (power_on mem page io key) (tr ++ [(F, m)]) (l ++ [x]) w ->
  In p (mo_sent m) -> length p = 58%nat -> skipn 56 p = [0x90; 0] ->
  exists tr' o' st, Forall2 echo (happened (map snd l)) tr' /\ history E key (tr' ++ [o']) st /\ signature o' = Some (firstn 56 p).
Proof.
  intros E U mem page io key tr F m l x w p HE Hio D Hin Ln Sk. destruct (does_follows _ _ _ _ _ _ HE Hio _ _ _ D) as [(t & st & Hm & Hh & _) Sent].
  specialize (Sent F m (F, m) ltac:(intros K; symmetry in K; eapply app_cons_not_nil; exact K)). rewrite !last_last in Sent. specialize (Sent eq_refl). cbn [snd] in Sent. rewrite Sent in Hin. clear Sent.
  destruct x as [F' [a os]]. rewrite happened_snoc_f in Hm. cbn [snd] in Hin. unfold answer_packets in Hin. cbn [snd] in Hin.
  assert (One : os = [] \/ exists o, os = [o]).
  { apply does_inv in D as [(K & _)|(tr0 & l0 & w2 & F0 & a0 & lw0 & os0 & _ & K2 & _ & _ & Hop0)]; [exfalso; eapply app_cons_not_nil; symmetry; exact K|]. apply app_inj_tail in K2 as [_ K2]. assert (os0 = os) as -> by congruence.
    destruct os as [|o os1]; [left; reflexivity|]. right. exists o. eapply one_answer; [exact Hop0|left; reflexivity]. }
  destruct One as [-> |[o ->]]; [destruct Hin|]. apply Forall2_app_inv_l in Hm as (t1 & t2 & Hm & Ho & ->). inversion Ho as [|? o' ? t3 Ec Nl]; subst. inversion Nl; subst. clear Ho Nl.
  cbn [map concat] in Hin. rewrite app_nil_r in Hin. exists t1, o', st. split; [exact Hm|]. split; [exact Hh|].
  unfold SpecWhole.packets in Hin. apply in_flat_map in Hin as (y & Hy & Hp). apply in_map_iff in Hy as (z & <- & Hz). destruct z as [bb s| | | |]; cbn [on_the_wire] in Hp; [|destruct Hp..].
  destruct Hp as [<-|[]]. unfold packet_of in *. rewrite app_length in Ln. cbn [length] in Ln. assert (Lb : length bb = 56%nat) by lia.
  rewrite skipn_app, skipn_all2, Lb, Nat.sub_diag in Sk by lia. cbn [skipn app] in Sk. injection Sk as S1 S2. pose proof (sw_ok_num s S1 S2) as ->.
  assert (Fb : firstn 56 (bb ++ [sw_num SW_OK / 256; sw_num SW_OK mod 256]) = bb) by (rewrite <- Lb, firstn_app, firstn_all, Nat.sub_diag; apply app_nil_r). rewrite Fb. clear Fb.
  inversion Ec as [e e' outs Se|e e' s s' Hs Hs' Bu]; subst; cbn [snd] in Hz; [|destruct Hz as [Hz|[]]; congruence].
  pose proof (proj1 (answers _ _ _ _ _ _ HE Hh)) as L. destruct outs as [|o1 [|]]; [destruct Hz| |cbn in L; lia]. destruct Hz as [->|[]].
  unfold signature. cbn [snd]. unfold blen. rewrite Lb. reflexivity.
Qed.
Theorem cost_at_cable : forall E U mem page io key tr F m l x w p G, env_ok E -> blen io = 260 -> fdoes E U (power_on mem page io key) (tr ++ [(F, m)]) (l ++ [x]) w ->
  In p (mo_sent m) -> length p = 58%nat -> skipn 56 p = [0x90; 0] -> no_forgery (happened (map snd l)) -> readable_grammar G ->
  exists start body e msg, session_of INS_SIGN (happened (map snd l)) = Some (start, body) /\ same_event (fst start) e /\ signed_message E (e, snd start) msg (firstn 56 p) /\
    (Forall (fun x => output_complete x = true) (sx_outputs (description body)) -> readable G (node_tx E (description body)) ->
     forall t bs, readable G t -> n_bytes t = msg -> spends E t bs -> collision_free E key (happened (map snd l)) bs ->
     exists amount fee roles, cost E (happened (map snd l)) (start_network (start_data start)) body t bs amount fee roles).
Proof.
  intros E U mem page io key tr F m l x w p G HE Hio D Hin Ln Sk Nf Rg. destruct (cable_last _ _ _ _ _ _ _ _ _ _ _ _ _ HE Hio D Hin Ln Sk) as (tr' & o' & st & Hm & Hh & Hg).
  exact (cost_echo _ _ _ _ _ _ _ G HE Hm Hh Hg Nf Rg).
Qed.
Theorem tokens_at_cable : forall E U mem page io key tr F m l x w p G, env_ok E -> blen io = 260 -> fdoes E U (power_on mem page io key) (tr ++ [(F, m)]) (l ++ [x]) w ->
  In p (mo_sent m) -> length p = 58%nat -> skipn 56 p = [0x90; 0] -> no_forgery (happened (map snd l)) -> readable_grammar G -> attested_readable E key (happened (map snd l)) G ->
  exists start body e msg, session_of INS_SIGN (happened (map snd l)) = Some (start, body) /\ same_event (fst start) e /\ signed_message E (e, snd start) msg (firstn 56 p) /\
    (Forall (fun x => output_complete x = true) (sx_outputs (description body)) -> readable G (node_tx E (description body)) ->
     forall t bs, readable G t -> n_bytes t = msg -> spends E t bs -> collision_free E key (happened (map snd l)) bs -> Forall (readable_on_ledger G) bs ->
     tokens_told E (happened (map snd l)) t bs).
Proof.
  intros E U mem page io key tr F m l x w p G HE Hio D Hin Ln Sk Nf Rg. destruct (cable_last _ _ _ _ _ _ _ _ _ _ _ _ _ HE Hio D Hin Ln Sk) as (tr' & o' & st & Hm & Hh & Hg).
  exact (tokens_echo _ _ _ _ _ _ _ G HE Hm Hh Hg Nf Rg).
Qed.
Theorem does_once : forall E U mem page io key tr w, env_ok E -> blen io = 260 -> fgoes_on E U (power_on mem page io key) tr w ->
  exists l, fdoes E U (power_on mem page io key) tr l w /\ forall l' w', fdoes E U (power_on mem page io key) tr l' w' -> l' = l.
Proof.
  intros E U mem page io key tr w HE Hio H. destruct (does_always _ _ _ _ _ _ HE Hio _ _ H) as (l & D). exists l. split; [exact D|]. intros l' w' D'. apply (does_det _ _ _ _ _ _ D _ _ D').
Qed.
