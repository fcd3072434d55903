(** After failing calls: what the device does from there without failures is what a device
    does in which none ever failed. *)
From Verif Require Import Lib Base Env UiFlow P2pkOp App SpecTrace SpecTx SpecScreen SpecSign Moves DispatchProofs SessionProofs Fault LowApp SpecFault FaultProofs
  SpecApdu SpecRequest SpecRules SpecAccept SpecAttest SpecStart SpecRecover StartAccept HostAttest HostRun SpecHost.

(** The rest of a history after [tr'] can be had after [tr] too. *)
Lemma combine_snoc : forall A B (l : list A) (l' : list B) x y, length l = length l' -> combine (l ++ [x]) (l' ++ [y]) = combine l l' ++ [(x, y)].
Proof.
  induction l as [|a l IH]; intros [|b l'] x y H; cbn [length] in H; try discriminate H; [reflexivity|].
  cbn [app combine]. f_equal. apply IH. congruence.
Qed.
Lemma calm_goes : forall E key tr tr' st, env_ok E -> fhistory E key tr st -> history E key tr' st ->
  forall l st', history E key (tr' ++ l) st' -> then_calm E key tr l st'.
Proof.
  intros E key tr tr' st Henv Hf Hh. induction l as [|[e outs] l IH] using rev_ind; intros st' H Fs W Len.
  - rewrite app_nil_r in H. destruct Fs; [|discriminate Len]. cbn [combine]. rewrite app_nil_r. rewrite <- (history_fun _ _ _ _ Hh _ H). exact Hf.
  - rewrite app_assoc in H. apply history_last in H as (st1 & H1 & _ & He & Hs & _ & Hd).
    destruct Fs as [|F Fs _] using rev_ind; [rewrite app_length in Len; cbn [length] in Len; lia|].
    rewrite !app_length in Len. cbn [length] in Len. apply Forall_app in W as [W WF]. apply Forall_inv in WF as (W1 & W2 & W3).
    assert (Len' : length Fs = length l) by lia. specialize (IH _ H1 Fs W Len').
    rewrite combine_snoc by exact Len'. rewrite app_assoc.
    apply (fhistory_step E key _ st1 F e outs st' IH W1 W2 He); [|exact Hd].
    rewrite (no_failure _ _ _ _ _ _ Henv IH W1 W2 He W3). exact Hs.
Qed.

(** A question still open is refused first. *)
Lemma cleared : forall E key tr st, env_ok E -> history E key tr st ->
  exists tr0 st0, (tr0 = [] \/ tr0 = [(UiReject, [OResp [] SW_DENY])]) /\ history E key (tr ++ tr0) st0 /\ on_screen (tr ++ tr0) = None.
Proof.
  intros E key tr st Henv H. destruct (on_screen tr) as [q|] eqn:O.
  - destruct (reject_screen _ _ _ _ _ Henv H O) as (st0 & Es & _ & _ & _ & _ & R). 
    exists [(UiReject, [OResp [] SW_DENY])], st0. split; [right; reflexivity|].
    split; [|tauto]. apply (history_step _ _ _ st UiReject); [exact H|exact I|exact Es|]. intros [K|[]]. discriminate K.
  - exists [], st. rewrite app_nil_r. split; [left; reflexivity|]. split; assumption.
Qed.

Lemma sign_after_failures : forall E key tr st w p2 data r, env_ok E -> fhistory E key tr st ->
  event_ok (Apdu CLA INS_SIGN 1 p2 data r) -> sign_request_ok E p2 data r -> tx_fits E w ->
  exists tr0 sid tr1 answer st' start, then_calm E key tr (tr0 ++ tr1 ++ [(UiApprove, answer)]) st' /\
    (tr0 = [] \/ tr0 = [(UiReject, [OResp [] SW_DENY])]) /\
    nth_error tr1 0 = Some start /\ nth_error tr1 1 = Some (UiApprove, [OResp [sid] SW_OK]) /\
    requests tr1 = sign_requests E key w p2 data sid r /\ user_approves tr1 /\ all_accepted tr1 /\
    ((exists sig, answer = [OResp sig SW_OK] /\ signed_message E start (bytes_to_sign E (wanted E w)) sig) \/
     answer = [OResp [] SW_SCHNORR_SIGNING_FAILED] /\ zero_challenge E start (bytes_to_sign E (wanted E w))).
Proof.
  intros E key tr st w p2 data r Henv Hf He Hr Hw. destruct (shadow_history _ _ _ _ Henv Hf) as (tr' & _ & H).
  destruct (cleared _ _ _ _ Henv H) as (tr0 & st0 & T0 & H0 & O0).
  destruct (sign_whole E key (tr' ++ tr0) st0 w p2 data r Henv H0 O0 He Hr Hw) as (sid & tr1 & answer & st' & start & H1 & R).
  exists tr0, sid, tr1, answer, st', start. split; [|split; [exact T0|exact R]].
  apply (calm_goes E key tr tr' st Henv Hf H). rewrite app_assoc. exact H1.
Qed.

Lemma attest_after_failures : forall E key tr st b r, env_ok E -> fhistory E key tr st ->
  box_fits b -> rnd_ok r -> id_drawn r ->
  exists tr0 sid tr1 st', then_calm E key tr (tr0 ++ tr1 ++ frame_exchanges E key b sid r) st' /\
    (tr0 = [] \/ tr0 = [(UiReject, [OResp [] SW_DENY])]) /\
    map fst tr1 = attest_events b sid r /\ all_accepted tr1 /\ nth_error tr1 1 = Some (UiApprove, [OResp [sid] SW_OK]).
Proof.
  intros E key tr st b r Henv Hf Hb Hr Hi. destruct (shadow_history _ _ _ _ Henv Hf) as (tr' & _ & H).
  destruct (cleared _ _ _ _ Henv H) as (tr0 & st0 & T0 & H0 & O0).
  destruct (attest_whole E key (tr' ++ tr0) st0 b r Henv H0 O0 Hb Hr Hi) as (sid & tr1 & st' & H1 & R).
  exists tr0, sid, tr1, st'. split; [|split; [exact T0|exact R]].
  apply (calm_goes E key tr tr' st Henv Hf H). rewrite app_assoc. exact H1.
Qed.
