(** C74: the whole device, at the cable and under the finger. *)
From Verif Require Import Lib Env UiFlow App SpecVlq SpecTree SpecTrace SpecTx SpecApdu SpecAmounts SpecScreen SpecSign SpecRules SpecScript SpecNode SpecCost SpecRequest Toy RulesToy ScriptProofs NodeProofs CostToy
  Buttons SpecButtons ButtonToy Whole SpecWhole WholeProofs WholeAll WholeToy.

(** C74.  Whatever memory, page buffers and I/O buffer the application starts on, after
    whatever earlier runs: each beginning of each run, as the packets and the display tell it,
    is one run of the device of C66, and of one only.  So all that is proved about histories
    and about buttons is true of it. *)
Theorem C74_run : forall E U runs key a b, env_ok E -> lifetime E U runs -> In (key, a ++ b) runs ->
  exists l d, operated E U key l d /\ tells_of E U key a l /\ forall l' d', operated E U key l' d' -> tells_of E U key a l' -> l' = l.
Proof. exact begins_told. Qed.
Print Assumptions C74_run.
(** Conversely, each run of that device happens at a cable, on every memory left over: nothing
    left by earlier runs hinders or changes it. *)
Theorem C74_all : forall E U key l d mem page io, env_ok E -> operated E U key l d -> blen io = 260 ->
  exists tr w, goes_on E U (power_on mem page io key) tr w /\ map mo_act tr = map (fun x => done_by (fst x)) l /\ tells_of E U key tr l.
Proof. exact run_all. Qed.
Print Assumptions C74_all.
(** A run with another key, cut off in a signing session while a key request is on the
    screen; then a run on the memory it left, with a whole signing session by hand. *)
Example C74_run_ex : env_ok toy /\ lifetime toy toy_ux WHOLE_LIFE /\ In (TOY_KEY, fst BEFORE ++ fst LAST) WHOLE_LIFE /\ tells_of toy toy_ux TOY_KEY (fst BEFORE) (deeds TOLD) /\
  operated toy toy_ux TOY_KEY (deeds TOLD) (after TOLD) /\ blen (repeat 7 260) = 260 /\
  (length (fst FIRST), length (fst BEFORE), length (fst LAST)) = (8, 27, 1)%nat /\
  map (fun m => map (fun p => length p) (mo_sent m)) (fst BEFORE) =
    [[]; []; []; [3]; [2]; [3]; [101]; []; []; [3]; [2]; [2]; [2]; [2]; [2]; []; []; []; [2]; [2]; [2]; [2]; [2]; [2]; []; []; []]%nat.
Proof.
  split; [exact toy_ok|]. split; [exact whole_life|]. split; [right; left; reflexivity|]. split; [exact before_tells|]. split; [apply deeds_operated|]. split; [reflexivity|].
  split; vm_compute; reflexivity.
Qed.

(** A packet with a signature leaves the device only when both buttons are pressed, with
    Approve on the display, on the final question of a signing session; and since the command
    that put it was received, no press was answered, and the user had all of it displayed or
    went by Reject. *)
Theorem C74_signature : forall E U runs key a m b p l d, env_ok E -> lifetime E U runs -> In (key, a ++ m :: b) runs -> operated E U key l d -> tells_of E U key a l ->
  In p (mo_sent m) -> length p = 58%nat -> skipn 56 p = [0x90; 0] ->
  mo_act m = Presses BOTH /\ shown_last a (Some (C_APPROVE, 0%nat)) /\
  exists q f pages, on_screen (happened l) = Some (q, U_STX_TX, f, pages) /\ read_all U a q f pages /\
    exists st, history E key (happened l ++ [(UiApprove, [OResp (firstn 56 p) SW_OK])]) st.
Proof. exact signature_told. Qed.
Print Assumptions C74_signature.
Example C74_signature_ex : exists m p, fst LAST = [m] /\ In p (mo_sent m) /\ length p = 58%nat /\ skipn 56 p = [0x90; 0] /\ lifetime toy toy_ux WHOLE_LIFE /\ In (TOY_KEY, fst BEFORE ++ m :: []) WHOLE_LIFE.
Proof.
  assert (L : match fst LAST with [m] => match mo_sent m with [p] => length p = 58%nat /\ skipn 56 p = [0x90; 0] | _ => False end | _ => False end) by (vm_compute; split; reflexivity).
  destruct (fst LAST) as [|m [|]] eqn:F; [destruct L| |destruct L]. destruct (mo_sent m) as [|p [|]] eqn:S; [destruct L| |destruct L]. destruct L as [L1 L2].
  exists m, p. split; [reflexivity|]. split; [rewrite S; left; reflexivity|]. split; [exact L1|]. split; [exact L2|]. split; [exact whole_life|]. rewrite <- F. right. left. reflexivity.
Qed.

(** What such a packet can cost (C64), if nobody else makes tags. *)
Theorem C74_cost : forall E U runs key a m b p l d G, env_ok E -> lifetime E U runs -> In (key, a ++ m :: b) runs -> operated E U key l d -> tells_of E U key a l ->
  In p (mo_sent m) -> length p = 58%nat -> skipn 56 p = [0x90; 0] -> no_forgery (happened l) -> readable_grammar G ->
  exists start body msg, session_of INS_SIGN (happened l) = Some (start, body) /\ signed_message E start msg (firstn 56 p) /\
    (Forall (fun x => output_complete x = true) (sx_outputs (description body)) -> readable G (node_tx E (description body)) ->
     forall t bs, readable G t -> n_bytes t = msg -> spends E t bs -> collision_free E key (happened l) bs ->
     exists amount fee roles, cost E (happened l) (start_network (start_data start)) body t bs amount fee roles).
Proof. exact cost_told. Qed.
Print Assumptions C74_cost.
(** The sample transaction, sent in packets and approved by hand. *)
Example C74_cost_ex : tells_of toy toy_ux TOY_KEY (fst BEFORE) (deeds TOLD) /\ no_forgery (happened (deeds TOLD)) /\ readable_grammar standard /\
  spends toy SAMPLE_TX [LEDGER_BOX] /\ collision_free toy TOY_KEY (happened (deeds TOLD)) [LEDGER_BOX].
Proof.
  split; [exact before_tells|]. split; [exact told_unforged|]. split; [exact standard_readable|]. split; [exact sample_spends|exact told_free].
Qed.

(** An extended key leaves the device only by such a press on its question, or at the request
    of an application session the user has approved before (C39). *)
Theorem C74_key : forall E U runs key a m b p l d, env_ok E -> lifetime E U runs -> In (key, a ++ m :: b) runs -> operated E U key l d -> tells_of E U key a l ->
  In p (mo_sent m) -> length p = 67%nat -> skipn 65 p = [0x90; 0] ->
  (mo_act m = Presses BOTH /\ shown_last a (Some (C_APPROVE, 0%nat)) /\
   exists p1 data r f, on_screen (happened l) = Some (Apdu CLA INS_KEY p1 0 data r, U_EPK, f, []) /\ read_all U a (Apdu CLA INS_KEY p1 0 data r) f []) \/
  exists data r, understood (mo_act m) = Host (Apdu CLA INS_KEY 2 0 data r) /\ known_token (happened l) (Apdu CLA INS_KEY 2 0 data r).
Proof. exact key_told. Qed.
Print Assumptions C74_key.
(** The same for an address. *)
Theorem C74_address : forall E U runs key a m b p l d, env_ok E -> lifetime E U runs -> In (key, a ++ m :: b) runs -> operated E U key l d -> tells_of E U key a l ->
  In p (mo_sent m) -> length p = 40%nat -> skipn 38 p = [0x90; 0] ->
  (mo_act m = Presses BOTH /\ shown_last a (Some (C_APPROVE, 0%nat)) /\
   exists p2 data r f, on_screen (happened l) = Some (Apdu CLA INS_ADDRESS 1 p2 data r, U_DA, f, []) /\ read_all U a (Apdu CLA INS_ADDRESS 1 p2 data r) f []) \/
  exists data r, understood (mo_act m) = Host (Apdu CLA INS_ADDRESS 1 2 data r) /\ known_token (happened l) (Apdu CLA INS_ADDRESS 1 2 data r).
Proof. exact address_told. Qed.
Print Assumptions C74_address.
(** A key asked for with a token and approved; an address and the key again, at once; an
    address without a token, approved. *)
Example C74_export_ex : lifetime toy toy_ux EXPORT_LIFE /\
  map (fun m => (match mo_act m with Presses _ => true | Arrives _ _ => false end, map (fun p => (length p, skipn (length p - 2) p)) (mo_sent m))) (fst (lived SECOND_POWER EXPORTED)) =
    [(false, []); (true, []); (true, []); (true, [(67%nat, [0x90; 0])]); (false, [(40%nat, [0x90; 0])]); (false, [(67%nat, [0x90; 0])]);
     (false, []); (true, []); (true, []); (true, [(40%nat, [0x90; 0])])].
Proof. split; [exact export_life|vm_compute; reflexivity]. Qed.
