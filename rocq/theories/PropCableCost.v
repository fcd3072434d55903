(** C85: what a signature that leaves on the cable can cost, while calls fail. *)
From Verif Require Import SpecScreen Lib Env UiFlow App SpecVlq SpecTree SpecTrace SpecTx SpecApdu SpecAmounts SpecSign SpecRules SpecScript SpecNode SpecCost Toy RulesToy ScriptProofs NodeProofs CostToy
  Restart Fault SpecFault Buttons SpecButtons ButtonToy FaultButtons SpecFaultRun Whole SpecWhole FaultWhole SpecFaultWhole WholeToy PropFaultWhole SpecCableCost CableCost CableApprove CableCostToy.

(** A run at the cable determines what the device does in it. *)
Theorem C85_does : forall E U mem page io key tr w, env_ok E -> blen io = 260 -> fgoes_on E U (power_on mem page io key) tr w ->
  exists l, fdoes E U (power_on mem page io key) tr l w /\ forall l' w', fdoes E U (power_on mem page io key) tr l' w' -> l' = l.
Proof. exact does_once. Qed.
Print Assumptions C85_does.

(** C85.  Start the application on any memory left over; let calls fail (all but HMAC-SHA256).
    A packet with a signature costs what C64 says, read off what the device did before. *)
Theorem C85_cost : forall E U mem page io key tr F m l x w p G, env_ok E -> blen io = 260 -> fdoes E U (power_on mem page io key) (tr ++ [(F, m)]) (l ++ [x]) w ->
  In p (mo_sent m) -> length p = 58%nat -> skipn 56 p = [0x90; 0] -> no_forgery (happened (map snd l)) -> readable_grammar G ->
  exists start body e msg, session_of INS_SIGN (happened (map snd l)) = Some (start, body) /\ same_event (fst start) e /\ signed_message E (e, snd start) msg (firstn 56 p) /\
    (Forall (fun x => output_complete x = true) (sx_outputs (description body)) -> readable G (node_tx E (description body)) ->
     forall t bs, readable G t -> n_bytes t = msg -> spends E t bs -> collision_free E key (happened (map snd l)) bs ->
     exists amount fee roles, cost E (happened (map snd l)) (start_network (start_data start)) body t bs amount fee roles).
Proof. exact cost_at_cable. Qed.
Print Assumptions C85_cost.
Theorem C85_tokens : forall E U mem page io key tr F m l x w p G, env_ok E -> blen io = 260 -> fdoes E U (power_on mem page io key) (tr ++ [(F, m)]) (l ++ [x]) w ->
  In p (mo_sent m) -> length p = 58%nat -> skipn 56 p = [0x90; 0] -> no_forgery (happened (map snd l)) -> readable_grammar G -> attested_readable E key (happened (map snd l)) G ->
  exists start body e msg, session_of INS_SIGN (happened (map snd l)) = Some (start, body) /\ same_event (fst start) e /\ signed_message E (e, snd start) msg (firstn 56 p) /\
    (Forall (fun x => output_complete x = true) (sx_outputs (description body)) -> readable G (node_tx E (description body)) ->
     forall t bs, readable G t -> n_bytes t = msg -> spends E t bs -> collision_free E key (happened (map snd l)) bs -> Forall (readable_on_ledger G) bs ->
     tokens_told E (happened (map snd l)) t bs).
Proof. exact tokens_at_cable. Qed.
Print Assumptions C85_tokens.
(** The sample of C80, on memory left by an earlier run: hashes fail in a first session; then a
    whole session, and a packet with the signature on the sample transaction. *)
Example C85_ex : (exists F m x w p, fdoes toy toy_ux SECOND_POWER (CABLE_BEFORE ++ [(F, m)]) (CABLE_DONE ++ [x]) w /\ In p (mo_sent m) /\ length p = 58%nat /\ skipn 56 p = [0x90; 0]) /\
  no_forgery (happened (map snd CABLE_DONE)) /\ readable_grammar standard /\
  option_map (fun x => description (snd x)) (session_of INS_SIGN (happened (map snd CABLE_DONE))) = Some (tx_of SIGN_ALL) /\
  n_bytes SAMPLE_TX = bytes_to_sign toy (tx_of SIGN_ALL) /\ spends toy SAMPLE_TX [LEDGER_BOX] /\
  collision_free toy TOY_KEY (happened (map snd CABLE_DONE)) [LEDGER_BOX] /\ attested_readable toy TOY_KEY (happened (map snd CABLE_DONE)) standard /\ Forall (readable_on_ledger standard) [LEDGER_BOX].
Proof.
  split; [exact cable_run|]. split; [exact cable_unforged|]. split; [exact standard_readable|]. split; [exact cable_described|]. split; [apply node_bytes|]. split; [exact sample_spends|].
  split; [exact cable_free|]. split; [exact cable_readable|exact sample_ledger].
Qed.

(** An approval in such a run is both buttons, pressed while the display shows Approve (or, on
    the question about the path that signs, a text card). *)
Theorem C85_approved : forall E U mem page io key tr F m l F' a os w e outs, env_ok E -> blen io = 260 ->
  fdoes E U (power_on mem page io key) (tr ++ [(F, m)]) (l ++ [(F', (a, os))]) w -> sound os -> In (e, outs) os -> responds outs = true -> is_approval (e, outs) = true ->
  mo_act m = Presses BOTH /\ exists w1, fdoes E U (power_on mem page io key) tr l w1 /\
    ((e = UiApprove /\ displayed (wh_dev w1) = Some (C_APPROVE, 0%nat)) \/ (e = UiPathBoth /\ exists t x p, displayed (wh_dev w1) = Some (C_TEXT t x, p))).
Proof. exact approved_at_cable. Qed.
Print Assumptions C85_approved.
Example C85_approved_ex : exists F m F' a os w outs, fdoes toy toy_ux SECOND_POWER (CABLE_BEFORE ++ [(F, m)]) (CABLE_DONE ++ [(F', (a, os))]) w /\ sound os /\ In (UiApprove, outs) os /\
  responds outs = true /\ is_approval (UiApprove, outs) = true.
Proof. exact cable_approves. Qed.
