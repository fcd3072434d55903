(** C63: how the device's behaviour depends on the wallet seed. *)
From Verif Require Import Lib Env UiFlow App SpecTrace SpecTx SpecApdu SpecRequest SpecStart SpecSeed Toy SeedToy SeedProofs.

(** C63.  Replace the seed of a device by another: for the same requests and user actions
    the two devices do the same, except that a requested key, address or signature is that
    of the respective seed. *)
Theorem C63_seed : forall E derive key tr st, env_ok E -> env_ok (with_seed E derive) -> same_paths E (with_seed E derive) -> history E key tr st ->
  exists tr' st', history (with_seed E derive) key tr' st' /\ Forall2 (same_but_seed E (with_seed E derive)) tr tr'.
Proof. exact seed_blind. Qed.
Print Assumptions C63_seed.
(** The two seeds of the example give different signatures for the same session. *)
Example C63_ex : env_ok toy /\ env_ok (with_seed toy OTHER) /\ same_paths toy (with_seed toy OTHER) /\
  history toy TOY_KEY (trace SIGN_ALL) (final SIGN_ALL) /\
  match play (with_seed toy OTHER) (init TOY_KEY) SIGN_ALL with
  | Some (tr, _) => match last (trace SIGN_ALL) (BadApdu, []), last tr (BadApdu, []) with
                    | (_, [OResp a SW_OK]), (_, [OResp b SW_OK]) => length a = 56%nat /\ length b = 56%nat /\ bytes_eqb a b = false
                    | _, _ => False
                    end
  | None => False
  end.
Proof.
  split; [exact toy_ok|]. split; [exact other_ok|]. split; [exact other_paths|]. split; [apply trace_history; vm_compute; reflexivity|].
  vm_compute. split; [reflexivity|]. split; reflexivity.
Qed.

(** Statuses and lengths of all answers agree; only the final approval may fail for one of
    them (when its challenge is zero). *)
Theorem C63_shape : forall E derive key tr st, env_ok E -> env_ok (with_seed E derive) -> same_paths E (with_seed E derive) -> history E key tr st ->
  exists tr' st', history (with_seed E derive) key tr' st' /\
    Forall2 (fun o o' => fst o = fst o' /\ Forall2 (fun x x' => answer_shape x = answer_shape x' \/ fst o = UiApprove /\ signing_answer x /\ signing_answer x') (snd o) (snd o')) tr tr'.
Proof. exact seed_shape. Qed.
Print Assumptions C63_shape.

(** As long as no key, address or signature is requested, nothing at all depends on the
    seed: in particular attestations do not. *)
Theorem C63_attest : forall E derive key tr st, history E key tr st -> Forall (fun o => no_key_used (fst o) = true) tr -> history (with_seed E derive) key tr st.
Proof. exact keyless. Qed.
Print Assumptions C63_attest.
Example C63_attest_ex : history toy TOY_KEY (trace ATTEST_FRAME) (final ATTEST_FRAME) /\ Forall (fun o => no_key_used (fst o) = true) (trace ATTEST_FRAME) /\
  length (answer ATTEST_FRAME) = 99%nat.
Proof.
  split; [apply trace_history; vm_compute; reflexivity|]. split; [|vm_compute; reflexivity]. apply Forall_forall. intros o Ho. revert o Ho. apply forallb_forall. vm_compute. reflexivity.
Qed.
