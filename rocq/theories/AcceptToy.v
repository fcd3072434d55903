(** A sample signing session waiting for commands. *)
From Verif Require Import Lib Env UiFlow App SpecTrace SpecTx SpecApdu SpecScreen SpecSign SpecAccept SpecAttest Moves SessionProofs Toy RulesToy.

Definition unspoilt (o : obs) : bool :=
  match signature o with
  | Some _ => false
  | None => match fst o with Apdu _ i p1 p2 _ _ => negb ((i =? INS_ATTEST) && (p1 =? 1) && (2 <? p2)) | _ => true end
  end.
Lemma unspoilt_ok : forall o, unspoilt o = true -> signature o = None /\ ~ malformed_start o.
Proof.
  intros o H. unfold unspoilt in H. destruct (signature o) eqn:S; [discriminate|]. split; [reflexivity|].
  intros (cla & p2 & data & r & -> & K). cbn [fst] in H. apply N.ltb_lt in K. rewrite K in H. discriminate.
Qed.
Lemma sample_signing : forall evs probe, playable (evs ++ [sign_cmd 0x15 probe]) = true ->
  trace (evs ++ [sign_cmd 0x15 probe]) = trace evs ++ [(sign_cmd 0x15 probe, [OResp [] SW_OK])] ->
  forallb unspoilt (body_of evs) = true ->
  exists start body, signing 7 (trace evs) start body /\ body_of evs = body.
Proof.
  intros evs probe P T U. pose proof (trace_history _ P) as H. rewrite T in H.
  destruct (same_session toy TOY_KEY (trace evs) (final (evs ++ [sign_cmd 0x15 probe])) INS_SIGN 0x15 7 probe RND [OResp [] SW_OK] toy_ok (or_intror eq_refl)) as (start & body & O); try discriminate; try reflexivity.
  { exact H. }
  exists start, body. unfold body_of in *. destruct O as (O & K). rewrite O in *. split; [|reflexivity]. split; [split; [exact O|exact K]|].
  apply Forall_forall. intros o Ho. apply unspoilt_ok. rewrite forallb_forall in U. auto.
Qed.

(** A sample attestation session waiting for commands. *)
Definition box_of (evs : list event) : s_box :=
  match session_of INS_ATTEST (trace evs) with Some (s, b) => streamed_box s b | None => sb_start [] end.
Definition intact (evs : list event) : bool :=
  match session_of INS_ATTEST (trace evs) with Some (_, b) => forallb unspoilt b | None => false end.
Lemma sample_attesting : forall evs sub probe outs, playable (evs ++ [cmd_of INS_ATTEST sub 7 probe]) = true ->
  trace (evs ++ [cmd_of INS_ATTEST sub 7 probe]) = trace evs ++ [(cmd_of INS_ATTEST sub 7 probe, outs)] ->
  sub <> 1 -> accepted outs = true -> intact evs = true ->
  exists start body, attesting 7 (trace evs) start body /\ box_of evs = streamed_box start body.
Proof.
  intros evs sub probe outs P T Hs Ha U. pose proof (trace_history _ P) as H. rewrite T in H.
  destruct (same_session toy TOY_KEY (trace evs) (final (evs ++ [cmd_of INS_ATTEST sub 7 probe])) INS_ATTEST sub 7 probe RND outs toy_ok (or_introl eq_refl) H Hs Ha)
    as (start & body & O).
  exists start, body. unfold box_of, intact in *. pose proof O as [O1 _]. rewrite O1 in *. split; [|reflexivity]. split; [exact O|].
  apply Forall_forall. intros o Ho. apply unspoilt_ok. rewrite forallb_forall in U. auto.
Qed.
