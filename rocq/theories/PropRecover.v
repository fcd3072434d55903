(** C78: the device works again once calls into the operating system no longer fail. *)
From Verif Require Import Lib Base Env UiFlow P2pkOp App Fault LowApp SpecTrace SpecTx SpecScreen SpecSign SpecFault SpecRecover Toy PropRules FaultProofs PropFault
  SpecApdu SpecRequest SpecRules SpecAccept SpecAttest SpecStart SpecHost PropHost FaultServe.

(** C78.  Whatever failed before, and wherever: once the user has refused the question that
    may still be open, the wallet's commands for a transaction within the limits are all
    accepted if the user approves, and the last approval is answered with a signature of
    exactly that transaction (or with an error, for a hash that begins with 24 zero bytes). *)
Theorem C78_signs : forall E key tr st w p2 data r, env_ok E -> fhistory E key tr st ->
  event_ok (Apdu CLA INS_SIGN 1 p2 data r) -> sign_request_ok E p2 data r -> tx_fits E w ->
  exists tr0 sid tr1 answer st' start, then_calm E key tr (tr0 ++ tr1 ++ [(UiApprove, answer)]) st' /\
    (tr0 = [] \/ tr0 = [(UiReject, [OResp [] SW_DENY])]) /\
    nth_error tr1 0 = Some start /\ nth_error tr1 1 = Some (UiApprove, [OResp [sid] SW_OK]) /\
    requests tr1 = sign_requests E key w p2 data sid r /\ user_approves tr1 /\ all_accepted tr1 /\
    ((exists sig, answer = [OResp sig SW_OK] /\ signed_message E start (bytes_to_sign E (wanted E w)) sig) \/
     answer = [OResp [] SW_SCHNORR_SIGNING_FAILED] /\ zero_challenge E start (bytes_to_sign E (wanted E w))).
Proof. exact sign_after_failures. Qed.
Print Assumptions C78_signs.

(** Likewise a box within the limits is attested, and its frames are those of the box under
    the session key of the start: failures do not change the key. *)
Theorem C78_attests : forall E key tr st b r, env_ok E -> fhistory E key tr st ->
  box_fits b -> rnd_ok r -> id_drawn r ->
  exists tr0 sid tr1 st', then_calm E key tr (tr0 ++ tr1 ++ frame_exchanges E key b sid r) st' /\
    (tr0 = [] \/ tr0 = [(UiReject, [OResp [] SW_DENY])]) /\
    map fst tr1 = attest_events b sid r /\ all_accepted tr1 /\ nth_error tr1 1 = Some (UiApprove, [OResp [sid] SW_OK]).
Proof. exact attest_after_failures. Qed.
Print Assumptions C78_attests.

(** A history that ends with an open question, after the hash failed on the script of an
    attested box; a transaction and a box that fit. *)
Notation FAILED_ONCE := (
  map (pair FINE) (firstn 2 ATTEST) ++ map (pair HASH_FAILS) (firstn 1 (skipn 2 ATTEST)) ++ map (pair ROUND_FAILS) (firstn 1 SIGN_START)).
Example C78_ex : exists tr st, fhistory toy TOY_KEY tr st /\ fsummary tr = [inl 1000; inl 1; inr SW_HASHER_ERROR; inl 1000] /\ st_busy st = true /\
  works FINE /\ event_ok (Apdu CLA INS_SIGN 1 1 START61 RND) /\ sign_request_ok toy 1 START61 RND /\ tx_fits toy BIG_TX /\
  box_fits BIG_BOX /\ rnd_ok RND /\ id_drawn RND.
Proof.
  assert (R : match fplay toy (init TOY_KEY) FAILED_ONCE with Some (tr, st) => fsummary tr = [inl 1000; inl 1; inr SW_HASHER_ERROR; inl 1000] /\ st_busy st = true | None => False end)
    by (vm_compute; split; reflexivity).
  destruct (fplay toy (init TOY_KEY) FAILED_ONCE) as [[tr st]|] eqn:P; [|destruct R]. destruct R as [R1 R2].
  exists tr, st. split.
  { eapply fplay_fhistory; [|exact P]. repeat (apply Forall_app; split); apply Forall_forall; intros x H; apply in_map_iff in H as (e & <- & _);
      (split; [apply (quiet_stack (fun _ _ => None))|intros k l; reflexivity]). }
  split; [exact R1|]. split; [exact R2|].
  split; [split; [apply quiet_stack|split; [intros k l; reflexivity|apply quiet_calls]]|].
  pose proof C61_ex as X. destruct X as (X1 & X2 & X3 & _). do 3 (split; [assumption|]).
  pose proof C60_ex as Y. destruct Y as (_ & _ & Y1 & Y2 & Y3 & _). do 2 (split; [assumption|]). assumption.
Qed.
