(** C76: the way out of a question. *)
From Verif Require Import Lib Env TxTable UiFlow P2pkOp App SpecTx SpecTrace SpecApdu SpecScreen SpecSign SpecRules SpecRequest SpecStart Toy Wire SpecWire Buttons SpecButtons ButtonProofs ButtonToy ButtonOut
  Whole SpecWhole WholeToy WholeOut SpecHost SpecWallet PropHost WalletToy.

(** C76.  While a question is there and the buttons are not dead, the user can end it without
    approving: single presses, at most one per part and none of them answered, lead to Reject,
    and both buttons there refuse.  That holds whatever pages cannot be computed.  Then there
    is no question, and the device displays a card. *)
Theorem C76_out : forall E U key l l' d k f pages, env_ok E -> put l k f pages -> still l' -> operated E U key (l ++ l') d -> ~ dead E U d ->
  exists l2 d2, operated E U key ((l ++ l') ++ l2 ++ [(Press BOTH, [(UiReject, [OResp [] SW_DENY])])]) d2 /\ (length l2 <= parts U (cards f pages))%nat /\
    Forall (fun x => exists b, fst x = Press b /\ b <> BOTH /\ answered x = false) l2 /\
    on_screen (happened ((l ++ l') ++ l2 ++ [(Press BOTH, [(UiReject, [OResp [] SW_DENY])])])) = None /\ exists x, displayed d2 = Some x.
Proof. exact way_out. Qed.
Print Assumptions C76_out.

(** A change output whose path is too long for a screen: its only page cannot be computed.
    The user stands on Approve, behind it. *)
Definition LONG_PATH : list N := [H' 44; H' 429; H' 1000000000; 0; 0] ++ repeat 2000000000 5.
Definition TO_LONG : list action :=
  by_hand (map (fun e => match e with Apdu _ _ 0x18 _ _ _ => sign_cmd 0x18 (path_bytes LONG_PATH) | _ => e end) (removelast (removelast SIGN_ALL))).
Example C76_out_ex : exists k f pages, put (deeds TO_LONG) k f pages /\ still (then_deeds TO_LONG [Press LEFT; Press LEFT]) /\
  operated toy toy_ux TOY_KEY (deeds TO_LONG ++ then_deeds TO_LONG [Press LEFT; Press LEFT]) (then_after TO_LONG [Press LEFT; Press LEFT]) /\
  ~ dead toy toy_ux (then_after TO_LONG [Press LEFT; Press LEFT]) /\ displayed (then_after TO_LONG [Press LEFT; Press LEFT]) = Some (C_APPROVE, O) /\
  pages = [Fail SW_BIP32_FORMATTING_FAILED] /\ parts toy_ux (cards f pages) = 4%nat.
Proof.
  assert (W : match asking (deeds TO_LONG) with Some (_, f, pages) => pages = [Fail SW_BIP32_FORMATTING_FAILED] /\ parts toy_ux (cards f pages) = 4%nat | None => False end) by (vm_compute; split; reflexivity).
  destruct (asking (deeds TO_LONG)) as [[[k f] pages]|] eqn:A; [|destruct W]. exists k, f, pages. destruct W as [W1 W2].
  destruct (toy_question TO_LONG [Press LEFT; Press LEFT] k f pages A) as (Q1 & Q2 & Q3); [vm_compute; reflexivity|]. do 3 (split; [assumption|]).
  split; [|split; [vm_compute; reflexivity|split; [exact W1|exact W2]]].
  intros D. specialize (D RIGHT). apply (f_equal (fun x => match dv_at (fst x) with P_AT i _ => Some i | _ => None end)) in D. vm_compute in D. discriminate D.
Qed.

(** The whole device, after anything: unless its buttons are dead, presses alone bring it to
    where every command is answered and a card is displayed; nothing is sent on the way, but
    for one refusal at the end if a question was open. *)
Theorem C76_ready : forall E U mem page io key, env_ok E -> blen io = 260 -> forall tr w, goes_on E U (power_on mem page io key) tr w -> ~ dead E U (wh_dev w) ->
  exists tr1 w1, goes_on E U (power_on mem page io key) (tr ++ tr1) w1 /\ all_answered (tr ++ tr1) /\ displayed (wh_dev w1) <> None /\
    (tr1 = [] \/ exists tr2 m, tr1 = tr2 ++ [m] /\ Forall (fun m => (exists b, mo_act m = Presses b /\ b <> BOTH) /\ mo_sent m = []) tr2 /\
      mo_act m = Presses BOTH /\ mo_sent m = [[0x69; 0x85]]).
Proof. exact back_home. Qed.
Print Assumptions C76_ready.

(** Then it serves any wallet (C75): the transaction planned gets signed. *)
Theorem C76_serves : forall E U mem page io key tr w p r, env_ok E -> blen io = 260 -> goes_on E U (power_on mem page io key) tr w -> ~ dead E U (wh_dev w) ->
  tx_fits E (pl_tx p) -> act_ok (Arrives (opening p) r) -> sign_request_ok E (pl_p2 p) (pl_start p) r ->
  exists tr1 tr2 w2 s, goes_on E U (power_on mem page io key) (tr ++ tr1 ++ tr2) w2 /\ Forall (fun m => exists b, mo_act m = Presses b) tr1 /\
    talks E p (tr ++ tr1) tr2 s false /\ good_end E p tr2 s.
Proof. exact serves. Qed.
Print Assumptions C76_serves.

(** The buttons are dead only when the user left the application, or pressed both buttons on
    the path of a key or address request; that path is displayed then. *)
Theorem C76_dead : forall E U mem page io key tr w, env_ok E -> blen io = 260 -> goes_on E U (power_on mem page io key) tr w -> dead E U (wh_dev w) ->
  displayed (wh_dev w) = None \/
  exists l1 l2 k f pages, tells_of E U key tr (l1 ++ l2) /\ put l1 k f pages /\ still l2 /\ (k = U_EPK \/ k = U_DA) /\ In BOTH (pressed l2) /\ exists t x p, displayed (wh_dev w) = Some (C_TEXT t x, p).
Proof. exact stuck. Qed.
Print Assumptions C76_dead.

(** A run on memory left by another: the same question, and the first card of it; and a run
    with dead buttons. *)
Notation WAITING := (lived SECOND_POWER TO_LONG).
Notation DEAD := (lived SECOND_POWER (TO_KEY ++ [Press RIGHT; Press RIGHT; Press BOTH])).
Example C76_ex : goes_on toy toy_ux SECOND_POWER (fst WAITING) (snd WAITING) /\ ~ dead toy toy_ux (wh_dev (snd WAITING)) /\ ~ all_answered (fst WAITING) /\ length (fst WAITING) = 24%nat /\
  tx_fits toy (pl_tx PLAN) /\ act_ok (Arrives (opening PLAN) RND) /\ sign_request_ok toy (pl_p2 PLAN) (pl_start PLAN) RND /\
  goes_on toy toy_ux SECOND_POWER (fst DEAD) (snd DEAD) /\ dead toy toy_ux (wh_dev (snd DEAD)) /\ displayed (wh_dev (snd DEAD)) <> None.
Proof.
  split; [apply lived_goes|]. split; [intros D; specialize (D RIGHT); apply (f_equal (fun x => length (snd x))) in D; vm_compute in D; discriminate D|].
  split; [intros K; vm_compute in K; discriminate K|]. split; [vm_compute; reflexivity|]. split; [exact (proj1 (proj2 (proj2 C61_ex)))|].
  split; [split; [vm_compute; reflexivity|]; split; [vm_compute; discriminate|]; split; repeat constructor|]. split; [exact plan_request|].
  split; [apply lived_goes|]. split; [apply (dead_place _ _ _ 1%nat 1%nat); left; vm_compute; reflexivity|]. vm_compute. discriminate.
Qed.
