(** C67: nothing but what the user was told survives a restart, or a new start. *)
From Verif Require Import Lib Env UiFlow P2pkOp App SpecText SpecTrace SpecTx SpecApdu SpecScreen SpecPages SpecSign SpecRules SpecDispatch SpecRequest Toy Restart SpecRestart RestartProofs.

(** C67.  Started again on whatever an earlier run left in memory, the device answers every
    sequence of events as a device started for the first time. *)
Theorem C67_restart : forall E mem key evs, outputs E (restart mem key) evs = outputs E (init key) evs.
Proof. exact restart_outputs. Qed.
Print Assumptions C67_restart.
(** So each run in the life of a device is by itself a history from the first start: every
    theorem about histories holds of every run, with the key drawn at its start. *)
Theorem C67_life : forall E l, life E l -> Forall (fun run => exists st, history E (fst run) (snd run) st) l.
Proof. exact life_histories. Qed.
Print Assumptions C67_life.

(** A command of a session is accepted only after a start of that session in the same run. *)
Theorem C67_session : forall E l key a ins p1 p2 data r outs b, env_ok E -> life E l ->
  In (key, a ++ (Apdu CLA ins p1 p2 data r, outs) :: b) l -> ins = INS_ATTEST \/ ins = INS_SIGN -> p1 <> 1 -> accepted outs = true ->
  exists start body, open_session ins p2 a start body.
Proof. exact life_sessions. Qed.
Print Assumptions C67_session.
(** A frame is accepted only with a tag made with the key of the same run. *)
Theorem C67_frame : forall E l key a c b data, env_ok E -> life E l -> In (key, a ++ c :: b) l ->
  continuation INS_SIGN c = Some (0x12, data) -> attested_data E key data.
Proof. exact life_frames. Qed.
Print Assumptions C67_frame.
(** A signature is given only for what the user approved in the same run. *)
Theorem C67_signature : forall E l key a o b sig, env_ok E -> life E l -> In (key, a ++ o :: b) l -> signature o = Some sig ->
  fst o = UiApprove /\ (exists q f pages, on_screen a = Some (q, U_STX_TX, f, pages)) /\
  exists start body sid, session_of INS_SIGN a = Some (start, body) /\ approved_in INS_SIGN sid body /\ Forall (keeps INS_SIGN sid) body.
Proof. exact life_signature. Qed.
Print Assumptions C67_signature.
(** A key or an address is given only for an approval in the same run, of the request itself
    or of the application's token. *)
Theorem C67_key : forall E l key a e outs b x, env_ok E -> life E l -> In (key, a ++ (e, outs) :: b) l -> In (OResp x SW_OK) outs -> length x = 65%nat ->
  (exists p1 data r f, e = UiApprove /\ on_screen a = Some (Apdu CLA INS_KEY p1 0 data r, U_EPK, f, [])) \/
  (exists data r, e = Apdu CLA INS_KEY 2 0 data r /\ known_token a e).
Proof. exact life_key. Qed.
Print Assumptions C67_key.
Theorem C67_address : forall E l key a e outs b x, env_ok E -> life E l -> In (key, a ++ (e, outs) :: b) l -> In (OResp x SW_OK) outs -> length x = 38%nat ->
  (exists p2 data r f, e = UiApprove /\ on_screen a = Some (Apdu CLA INS_ADDRESS 1 p2 data r, U_DA, f, [])) \/
  (exists data r, e = Apdu CLA INS_ADDRESS 1 2 data r /\ known_token a e).
Proof. exact life_address. Qed.
Print Assumptions C67_address.

(** Within a run too: with no question on the screen, a new request finds of all that went
    before only the remembered token. *)
Theorem C67_past : forall E key tr st tr' st', env_ok E -> history E key tr st -> history E key tr' st' ->
  on_screen tr = None -> on_screen tr' = None -> remembered tr = remembered tr' ->
  forall e evs, opens e -> outputs E st (e :: evs) = outputs E st' (e :: evs).
Proof. exact past_forgotten. Qed.
Print Assumptions C67_past.

(** A device cut off in the middle of signing, a token remembered: after the restart the
    session is gone, the request that needed no approval is put to the user again, and the
    frame of the earlier run is refused.  Cut off once more, it signs. *)
Definition ASK_KEY : event := cmd_of INS_KEY 2 0 (path_bytes ACCOUNT0 ++ be_bytes 4 0x11223344).
Definition OTHER_KEY : bytes := be_bytes 32 0x0807060504030201.
Definition RUN1 : list event := ATTEST_FRAME ++ SIGN_START.
Definition RUN2 : list event := [nth 0 SIGN_INPUTS UiAbout; ASK_KEY; UiReject] ++ SIGN_START ++ SIGN_INPUTS.
Notation RUNS := (replay toy (final SIGN_ALL) [(TOY_KEY, RUN1); (OTHER_KEY, RUN2); (TOY_KEY, SIGN_ALL)]).
Definition summary (tr : list obs) : list (N + sw) :=
  map (fun o => match snd o with [OResp b SW_OK] => inl (blen b) | [OResp _ s] => inr s | [OShow _ _ _] => inl 1000 | _ => inl 2000 end) tr.
Definition REFUSED : list (N + sw) := [inr SW_BAD_STATE; inl 1000; inr SW_DENY; inl 1000; inl 1; inl 0; inl 0; inr SW_BAD_FRAME_SIGNATURE].
Definition SIGNED : list (N + sw) := map inl [1000; 1; 0; 1; 99; 1000; 1; 0; 0; 0; 0; 0; 1000; 0; 0; 0; 0; 0; 0; 1000; 56].
Example C67_ex : option_map (map (fun x => (fst x, summary (snd x), remembered (snd x)))) RUNS =
  Some [(TOY_KEY, firstn 7 SIGNED, 0x11223344); (OTHER_KEY, REFUSED, 0x11223344); (TOY_KEY, SIGNED, 0x11223344)].
Proof. vm_compute. reflexivity. Qed.
Example C67_life_ex : exists l, RUNS = Some l /\ life toy l /\ length l = 3%nat.
Proof.
  pose proof C67_ex as R. destruct RUNS as [l|] eqn:K; [|discriminate]. exists l. split; [reflexivity|].
  split; [apply replay_life in K; exact K|].
  apply (f_equal (fun o => match o with Some y => length y | None => 0%nat end)) in R. cbn [option_map] in R. rewrite map_length in R. exact R.
Qed.
(** An attestation completed, or nothing at all: a new request finds the same device. *)
Definition NEW_SIGN : list event := [cmd_of INS_SIGN 1 1 ([0] ++ path_bytes ADDRESS0); UiPathBoth].
Example C67_past_ex : history toy TOY_KEY (trace ATTEST_FRAME) (final ATTEST_FRAME) /\ history toy TOY_KEY [] (init TOY_KEY) /\
  on_screen (trace ATTEST_FRAME) = None /\ remembered (trace ATTEST_FRAME) = remembered [] /\ opens (nth 0 NEW_SIGN UiAbout) /\
  st_ctx (final ATTEST_FRAME) <> st_ctx (init TOY_KEY) /\
  outputs toy (final ATTEST_FRAME) NEW_SIGN = outputs toy (init TOY_KEY) NEW_SIGN /\ length (concat (outputs toy (init TOY_KEY) NEW_SIGN)) = 2%nat.
Proof.
  split; [apply trace_history; vm_compute; reflexivity|]. split; [constructor|]. split; [vm_compute; reflexivity|]. split; [vm_compute; reflexivity|].
  split; [vm_compute; tauto|]. split; [vm_compute; discriminate|]. split; vm_compute; reflexivity.
Qed.
