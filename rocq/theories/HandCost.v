(** What a signature can cost, for the device operated by its buttons while calls fail. *)
From Verif Require Import Lib Base Env UiFlow App SpecApdu SpecTrace SpecTx SpecSign SpecRules SpecScript SpecNode SpecCost Fault LowApp SpecFault Buttons SpecButtons FaultButtons SpecFaultRun ButtonFault FaultCost.

Lemma one_answer : forall E F U d a d' os o, foperate E F U d a = (d', os) -> In o os -> os = [o].
Proof.
  intros E F U d a d' os o Ho Hin. destruct a as [e|b]; cbn [foperate] in Ho.
  - apply receive_by_shape in Ho as [(_ & -> & _)|(outs & _ & -> & _)]; [destruct Hin|]. destruct Hin as [->|[]]. reflexivity.
  - destruct (press_once U d b) as [(d1 & K & _)|(e & at_ & _ & _ & K & _)].
    + rewrite K in Ho. injection Ho as _ <-. destruct Hin.
    + destruct (K (fstep E F)) as (d1 & K1 & _). rewrite K1 in Ho. injection Ho as _ <-. destruct Hin as [->|[]]. reflexivity.
Qed.
Lemma hand_history : forall E U key l F a os d o, foperated E U key (l ++ [(F, (a, os))]) d -> In o os -> fhistory E key (fhappened l ++ [(F, o)]) (dv_st d).
Proof.
  intros E U key l F a os d o H Hin. pose proof (foperated_history _ _ _ _ _ H) as Hh. destruct (foperated_last _ _ _ _ _ _ _ _ H) as (d0 & _ & _ & _ & _ & Ho & _).
  rewrite (one_answer _ _ _ _ _ _ _ _ Ho Hin) in Hh. rewrite fhappened_snoc in Hh. exact Hh.
Qed.
Lemma fhappened_happened : forall l, map snd (fhappened l) = happened (map snd l).
Proof.
  intros l. unfold fhappened, happened. induction l as [|[F [a os]] l IH]; [reflexivity|]. cbn [map concat fst snd]. rewrite map_app, IH, map_map. cbn [snd]. rewrite map_id. reflexivity.
Qed.
Theorem cost_by_hand : forall E U key l F a os d o sig G, env_ok E -> foperated E U key (l ++ [(F, (a, os))]) d -> In o os -> signature o = Some sig ->
  no_forgery (happened (map snd l)) -> readable_grammar G ->
  exists start body e msg, session_of INS_SIGN (happened (map snd l)) = Some (start, body) /\ same_event (fst start) e /\ signed_message E (e, snd start) msg sig /\
    (Forall (fun x => output_complete x = true) (sx_outputs (description body)) -> readable G (node_tx E (description body)) ->
     forall t bs, readable G t -> n_bytes t = msg -> spends E t bs -> collision_free E key (happened (map snd l)) bs ->
     exists amount fee roles, cost E (happened (map snd l)) (start_network (start_data start)) body t bs amount fee roles).
Proof. intros E U key l F a os d o sig G HE H Hin Hs. rewrite <- fhappened_happened. exact (cost_despite _ _ _ _ _ _ _ G HE (hand_history _ _ _ _ _ _ _ _ _ H Hin) Hs). Qed.
Theorem tokens_by_hand : forall E U key l F a os d o sig G, env_ok E -> foperated E U key (l ++ [(F, (a, os))]) d -> In o os -> signature o = Some sig ->
  no_forgery (happened (map snd l)) -> readable_grammar G -> attested_readable E key (happened (map snd l)) G ->
  exists start body e msg, session_of INS_SIGN (happened (map snd l)) = Some (start, body) /\ same_event (fst start) e /\ signed_message E (e, snd start) msg sig /\
    (Forall (fun x => output_complete x = true) (sx_outputs (description body)) -> readable G (node_tx E (description body)) ->
     forall t bs, readable G t -> n_bytes t = msg -> spends E t bs -> collision_free E key (happened (map snd l)) bs -> Forall (readable_on_ledger G) bs ->
     tokens_told E (happened (map snd l)) t bs).
Proof. intros E U key l F a os d o sig G HE H Hin Hs. rewrite <- fhappened_happened. exact (tokens_despite _ _ _ _ _ _ _ G HE (hand_history _ _ _ _ _ _ _ _ _ H Hin) Hs). Qed.
