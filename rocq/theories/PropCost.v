(** C64: what a signature can cost. *)
From Verif Require Import Lib Env UiFlow App SpecVlq SpecTree SpecTrace SpecTx SpecApdu SpecAmounts SpecSign SpecRules SpecScript SpecNode SpecCost Toy RulesToy ScriptProofs NodeProofs CostProofs CostToy.

(** C64.  Let a node find a transaction [t] in the signed bytes and the boxes [bs] under the
    ids of its inputs.  If nobody else makes tags, the hash does not collide on the boxes,
    and the transaction described in the session was complete and readable, then what is
    spent and not returned to keys of the wallet is the amount plus the fee on the final
    screen, which the user approved, and every output to anybody else but the miners was
    shown with all it holds and approved ([cost], SpecCost.v). *)
Theorem C64_cost : forall E key tr o st sig G, env_ok E -> history E key (tr ++ [o]) st -> signature o = Some sig -> no_forgery tr -> readable_grammar G ->
  exists start body msg, session_of INS_SIGN tr = Some (start, body) /\ signed_message E start msg sig /\
    (Forall (fun x => output_complete x = true) (sx_outputs (description body)) -> readable G (node_tx E (description body)) ->
     forall t bs, readable G t -> n_bytes t = msg -> spends E t bs -> collision_free E key tr bs ->
     exists amount fee roles, cost E tr (start_network (start_data start)) body t bs amount fee roles).
Proof. exact cost_holds. Qed.
Print Assumptions C64_cost.
(** The sample: one box of 1 ERG; 0.6 to others, 0.001 fee, 0.399 back to the wallet.  (That
    the transaction is complete and readable is C62_ex.) *)
Example C64_ex : history toy TOY_KEY (trace SIGN_ALL) (final SIGN_ALL) /\ trace SIGN_ALL = before_last SIGN_ALL ++ [last (trace SIGN_ALL) NO_OBS] /\
  signature (last (trace SIGN_ALL) NO_OBS) <> None /\ no_forgery (before_last SIGN_ALL) /\ readable_grammar standard /\
  spends toy SAMPLE_TX [LEDGER_BOX] /\ collision_free toy TOY_KEY (before_last SIGN_ALL) [LEDGER_BOX] /\
  n_bytes SAMPLE_TX = bytes_to_sign toy (tx_of SIGN_ALL) /\
  map nb_value [LEDGER_BOX] = [1000000000] /\ map no_value (nt_outputs SAMPLE_TX) = [600000000; 1000000; 399000000].
Proof.
  split; [apply trace_history; vm_compute; reflexivity|]. split; [apply app_removelast_last; vm_compute; discriminate|].
  split; [vm_compute; discriminate|]. split; [exact sample_unforged|]. split; [exact standard_readable|]. split; [exact sample_spends|].
  split; [exact sample_free|]. split; [apply node_bytes|]. split; vm_compute; reflexivity.
Qed.

(** Tokens: if the attested boxes and those of the ledger are readable too, the final screen
    has two pages for each token of which the outputs hold more or less than is spent, and
    says the exact difference. *)
Theorem C64_tokens : forall E key tr o st sig G, env_ok E -> history E key (tr ++ [o]) st -> signature o = Some sig -> no_forgery tr -> readable_grammar G ->
  attested_readable E key tr G ->
  exists start body msg, session_of INS_SIGN tr = Some (start, body) /\ signed_message E start msg sig /\
    (Forall (fun x => output_complete x = true) (sx_outputs (description body)) -> readable G (node_tx E (description body)) ->
     forall t bs, readable G t -> n_bytes t = msg -> spends E t bs -> collision_free E key tr bs -> Forall (readable_on_ledger G) bs ->
     tokens_told E tr t bs).
Proof. exact tokens_hold. Qed.
Print Assumptions C64_tokens.
(** The sample spends 1000 of a token and holds 900 of it. *)
Example C64_tokens_ex : attested_readable toy TOY_KEY (before_last SIGN_ALL) standard /\ Forall (readable_on_ledger standard) [LEDGER_BOX] /\
  spent [LEDGER_BOX] TOKEN_A = 1000 /\ created SAMPLE_TX TOKEN_A = 900.
Proof. split; [exact sample_readable_boxes|]. split; [exact sample_ledger|]. split; vm_compute; reflexivity. Qed.
