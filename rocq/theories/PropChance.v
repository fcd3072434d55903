(** C73: what the session key, the session ids and the random numbers decide. *)
From Verif Require Import Lib Env UiFlow App SpecTrace SpecTx SpecApdu SpecStart SpecSeed SpecChance Toy ChanceToy ChanceProofs.

(** C73.  The session key decides nothing but the 16-byte tags of frames.  Replace the key,
    and even the way tags are computed: as long as the tags of the frames given out and
    presented stay the same, the device does the same. *)
Theorem C73_key : forall E hmac key key' tr st, env_ok E -> history E key tr st ->
  (forall o m, In o tr -> frame_content o m -> firstn 16 (hmac key' m) = firstn 16 (e_hmac E key m)) ->
  exists st', history (with_tags E hmac) key' tr st'.
Proof. exact key_only_tags. Qed.
Print Assumptions C73_key.
(** A whole signing session; with the other key the tags would have been different. *)
Example C73_key_ex : env_ok toy /\ history toy TOY_KEY (trace SIGN_ALL) (final SIGN_ALL) /\
  (forall o m, In o (trace SIGN_ALL) -> frame_content o m -> firstn 16 (TAGS2 KEY2 m) = firstn 16 (e_hmac toy TOY_KEY m)) /\
  bytes_eqb (firstn 16 (e_hmac toy KEY2 (tagged_part FRAME))) (firstn 16 (e_hmac toy TOY_KEY (tagged_part FRAME))) = false /\
  bytes_eqb FRAME (tagged_part FRAME ++ firstn 16 (e_hmac toy TOY_KEY (tagged_part FRAME))) = true.
Proof.
  split; [exact toy_ok|]. split; [apply trace_history; vm_compute; reflexivity|]. split; [intros; reflexivity|]. vm_compute. split; reflexivity.
Qed.

(** In particular, until a frame is given out or presented nothing depends on the key. *)
Theorem C73_no_frame : forall E hmac key key' tr st, env_ok E -> history E key tr st -> (forall o m, In o tr -> ~ frame_content o m) ->
  exists st', history (with_tags E hmac) key' tr st'.
Proof. exact no_frame_any_key. Qed.
Print Assumptions C73_no_frame.
Example C73_no_frame_ex : history toy TOY_KEY (trace (ATTEST ++ SIGN_START)) (final (ATTEST ++ SIGN_START)) /\
  (forall o m, In o (trace (ATTEST ++ SIGN_START)) -> ~ frame_content o m).
Proof.
  split; [apply trace_history; vm_compute; reflexivity|]. intros o m Ho Hm.
  assert (K : forallb (fun o => match fst o with Apdu _ ins p1 _ _ _ => negb ((ins =? INS_ATTEST) && (p1 =? 5)) && negb ((ins =? INS_SIGN) && (p1 =? 0x12)) | _ => true end)
                (trace (ATTEST ++ SIGN_START)) = true) by (vm_compute; reflexivity).
  rewrite forallb_forall in K. specialize (K o Ho). destruct Hm; vm_compute in K; discriminate K.
Qed.

(** Session ids are names.  Rename the ids the random source offers and those the host
    sends: the device does the same, with the ids it gives out renamed. *)
Theorem C73_ids : forall E key f tr st, env_ok E -> renaming f -> history E key tr st ->
  exists st', history E key (map (rename f) tr) st'.
Proof. exact ids_opaque. Qed.
Print Assumptions C73_ids.
Example C73_ids_ex : renaming SWAP /\ history toy TOY_KEY (trace SIGN_ALL) (final SIGN_ALL) /\
  map (fun o => match fst o, snd o with UiApprove, [OResp [i] SW_OK] => Some i | UiPathBoth, [OResp [i] SW_OK] => Some i | _, _ => None end) (firstn 7 (trace SIGN_ALL)) =
    [None; Some 7; None; None; None; None; Some 7] /\
  map (fun o => match fst o, snd o with UiApprove, [OResp [i] SW_OK] => Some i | UiPathBoth, [OResp [i] SW_OK] => Some i | _, _ => None end) (firstn 7 (map (rename SWAP) (trace SIGN_ALL))) =
    [None; Some 9; None; None; None; None; Some 9] /\
  answer SIGN_ALL = match last (map (rename SWAP) (trace SIGN_ALL)) (BadApdu, []) with (_, [OResp b _]) => b | _ => [] end.
Proof.
  split; [exact swap_renames|]. split; [apply trace_history; vm_compute; reflexivity|]. vm_compute. split; [reflexivity|]. split; reflexivity.
Qed.

(** The nonce decides nothing but the signature.  Replace all random numbers, keeping the
    session ids: the device does the same, except that the final approval may give another
    signature.  In particular no screen and no earlier answer tells anything about the nonce. *)
Theorem C73_nonce : forall E key tr st evs, env_ok E -> history E key tr st -> Forall event_ok evs -> Forall2 (other_chance E) (map fst tr) evs ->
  exists tr' st', history E key tr' st' /\ map fst tr' = evs /\ Forall2 same_but_signature tr tr'.
Proof. exact nonce_only_signature. Qed.
Print Assumptions C73_nonce.
Example C73_nonce_ex : history toy TOY_KEY (trace SIGN_ALL) (final SIGN_ALL) /\ Forall event_ok (map chance2 SIGN_ALL) /\
  Forall2 (other_chance toy) SIGN_ALL (map chance2 SIGN_ALL) /\
  length (answer SIGN_ALL) = 56%nat /\ length (answer (map chance2 SIGN_ALL)) = 56%nat /\ bytes_eqb (answer SIGN_ALL) (answer (map chance2 SIGN_ALL)) = false.
Proof.
  split; [apply trace_history; vm_compute; reflexivity|].
  assert (K : forallb event_okb (map chance2 SIGN_ALL) = true) by (vm_compute; reflexivity).
  split; [apply Forall_forall; intros e He; apply event_okb_ok; rewrite forallb_forall in K; exact (K e He)|].
  split; [apply chance2_other; vm_compute; reflexivity|]. vm_compute. split; [reflexivity|]. split; reflexivity.
Qed.
