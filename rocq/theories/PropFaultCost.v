(** C84: what a signature can cost while calls into the operating system fail. *)
From Verif Require Import Lib Env UiFlow App Fault SpecVlq SpecTree SpecTrace SpecTx SpecApdu SpecAmounts SpecSign SpecRules SpecScript SpecNode SpecCost SpecFault Toy RulesToy ScriptProofs NodeProofs CostToy
  FaultProofs PropFault FaultCost FaultCostToy Buttons SpecButtons ButtonToy FaultButtons SpecFaultRun HandCost HandCostToy.

(** C84.  C64 with calls that fail (all but HMAC-SHA256) and local buffers of any content,
    in what was seen in that very run: the answers and screens there, and the session in
    it.  The draws of the random generator, in the start of the session, are those of [e]:
    the same up to draws without use. *)
Theorem C84_cost : forall E key tr F o st sig G, env_ok E -> fhistory E key (tr ++ [(F, o)]) st -> signature o = Some sig -> no_forgery (map snd tr) -> readable_grammar G ->
  exists start body e msg, session_of INS_SIGN (map snd tr) = Some (start, body) /\ same_event (fst start) e /\ signed_message E (e, snd start) msg sig /\
    (Forall (fun x => output_complete x = true) (sx_outputs (description body)) -> readable G (node_tx E (description body)) ->
     forall t bs, readable G t -> n_bytes t = msg -> spends E t bs -> collision_free E key (map snd tr) bs ->
     exists amount fee roles, cost E (map snd tr) (start_network (start_data start)) body t bs amount fee roles).
Proof. exact cost_despite. Qed.
Print Assumptions C84_cost.
(** The sample with a failed hash and a failed round of the nonce loop: the signature is on
    the sample transaction, which is complete and readable (C62_ex). *)
Example C84_ex : (exists F, fhistory toy TOY_KEY (FAILING_BEFORE ++ [(F, FAILING_LAST)]) FAILING_END) /\ signature FAILING_LAST <> None /\
  no_forgery (map snd FAILING_BEFORE) /\ readable_grammar standard /\
  option_map (fun x => description (snd x)) (session_of INS_SIGN (map snd FAILING_BEFORE)) = Some (tx_of SIGN_ALL) /\
  n_bytes SAMPLE_TX = bytes_to_sign toy (tx_of SIGN_ALL) /\ spends toy SAMPLE_TX [LEDGER_BOX] /\
  collision_free toy TOY_KEY (map snd FAILING_BEFORE) [LEDGER_BOX].
Proof.
  split; [exact failing_split|]. split; [exact failing_signed|]. split; [exact failing_unforged|]. split; [exact standard_readable|]. split; [exact failing_described|].
  split; [apply node_bytes|]. split; [exact sample_spends|exact failing_free].
Qed.

(** The tokens on the final screen, likewise. *)
Theorem C84_tokens : forall E key tr F o st sig G, env_ok E -> fhistory E key (tr ++ [(F, o)]) st -> signature o = Some sig -> no_forgery (map snd tr) -> readable_grammar G ->
  attested_readable E key (map snd tr) G ->
  exists start body e msg, session_of INS_SIGN (map snd tr) = Some (start, body) /\ same_event (fst start) e /\ signed_message E (e, snd start) msg sig /\
    (Forall (fun x => output_complete x = true) (sx_outputs (description body)) -> readable G (node_tx E (description body)) ->
     forall t bs, readable G t -> n_bytes t = msg -> spends E t bs -> collision_free E key (map snd tr) bs -> Forall (readable_on_ledger G) bs ->
     tokens_told E (map snd tr) t bs).
Proof. exact tokens_despite. Qed.
Print Assumptions C84_tokens.
Example C84_tokens_ex : attested_readable toy TOY_KEY (map snd FAILING_BEFORE) standard /\ Forall (readable_on_ledger standard) [LEDGER_BOX].
Proof. split; [exact failing_readable|exact sample_ledger]. Qed.

(** The device operated by its two buttons while calls fail: whatever is sent and pressed, the
    observations being those of the run before the action that gave the signature. *)
Theorem C84_hand_cost : forall E U key l F a os d o sig G, env_ok E -> foperated E U key (l ++ [(F, (a, os))]) d -> In o os -> signature o = Some sig ->
  no_forgery (happened (map snd l)) -> readable_grammar G ->
  exists start body e msg, session_of INS_SIGN (happened (map snd l)) = Some (start, body) /\ same_event (fst start) e /\ signed_message E (e, snd start) msg sig /\
    (Forall (fun x => output_complete x = true) (sx_outputs (description body)) -> readable G (node_tx E (description body)) ->
     forall t bs, readable G t -> n_bytes t = msg -> spends E t bs -> collision_free E key (happened (map snd l)) bs ->
     exists amount fee roles, cost E (happened (map snd l)) (start_network (start_data start)) body t bs amount fee roles).
Proof. exact cost_by_hand. Qed.
Print Assumptions C84_hand_cost.
Theorem C84_hand_tokens : forall E U key l F a os d o sig G, env_ok E -> foperated E U key (l ++ [(F, (a, os))]) d -> In o os -> signature o = Some sig ->
  no_forgery (happened (map snd l)) -> readable_grammar G -> attested_readable E key (happened (map snd l)) G ->
  exists start body e msg, session_of INS_SIGN (happened (map snd l)) = Some (start, body) /\ same_event (fst start) e /\ signed_message E (e, snd start) msg sig /\
    (Forall (fun x => output_complete x = true) (sx_outputs (description body)) -> readable G (node_tx E (description body)) ->
     forall t bs, readable G t -> n_bytes t = msg -> spends E t bs -> collision_free E key (happened (map snd l)) bs -> Forall (readable_on_ledger G) bs ->
     tokens_told E (happened (map snd l)) t bs).
Proof. exact tokens_by_hand. Qed.
Print Assumptions C84_hand_tokens.
(** A first session in which all hashes fail; then a whole one, by hand, up to the signature. *)
Example C84_hand_ex : (exists F o d, foperated toy toy_ux TOY_KEY (HAND_BEFORE ++ [(F, (Press BOTH, [o]))]) d /\ signature o <> None) /\
  no_forgery (happened (map snd HAND_BEFORE)) /\ option_map (fun x => description (snd x)) (session_of INS_SIGN (happened (map snd HAND_BEFORE))) = Some (tx_of SIGN_ALL) /\
  collision_free toy TOY_KEY (happened (map snd HAND_BEFORE)) [LEDGER_BOX] /\ attested_readable toy TOY_KEY (happened (map snd HAND_BEFORE)) standard.
Proof. split; [exact hand_run|]. split; [exact hand_unforged|]. split; [exact hand_described|]. split; [exact hand_free|exact hand_readable]. Qed.
