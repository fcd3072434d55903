(** Sample histories for the rules on outputs. *)
From Verif Require Import Lib Env UiFlow App SpecTrace SpecTx SpecApdu SpecAmounts SpecScreen SpecSign SpecRules Toy.

Definition header (nin ndata ntok nout : N) : event :=
  sign_cmd 0x10 (be_bytes 2 nin ++ be_bytes 2 ndata ++ be_bytes 1 ntok ++ be_bytes 2 nout).
Definition ONE_INPUT (nout : N) : list event :=
  ATTEST_FRAME ++ SIGN_START ++ [header 1 0 1 nout; sign_cmd 0x11 TOKEN_A; sign_cmd 0x12 (FRAME ++ be_bytes 4 0)].
Definition change_to (value : N) (p : list N) : list event := [output_head value 0 501 0 0; sign_cmd 0x18 (path_bytes p)].
Definition wallet (a c i : N) : list N := [H' 44; H' 429; H' a; c; i].

(** Change to another account, unseen. *)
Definition OTHER_ACCOUNT : list event := ONE_INPUT 1 ++ change_to 1000000000 (wallet 5 0 3) ++ [sign_cmd 0x20 []; UiApprove].
(** Change to index 100 approved, then change to index 5000 of another account, unseen. *)
Definition FAR_CHANGE : list event :=
  ONE_INPUT 2 ++ change_to 1 (wallet 0 0 100) ++ [UiApprove] ++ change_to 999999999 (wallet 7 1 5000) ++ [sign_cmd 0x20 []; UiApprove].
(** The same change path with different value and tokens. *)
Definition CHANGE_SCREEN (value amount : N) : list event :=
  ONE_INPUT 1 ++ [output_head value 0 501 1 0; sign_cmd 0x18 (path_bytes (wallet 0 0 100)); sign_cmd 0x19 (be_bytes 4 0 ++ be_bytes 8 amount)].

Definition body_of (evs : list event) : list obs := match session_of INS_SIGN (trace evs) with Some (_, b) => b | None => [] end.
Definition tx_of (evs : list event) : s_tx := description (body_of evs).
Definition NO_OBS : obs := (BadApdu, []).
Definition before_last (evs : list event) : list obs := removelast (trace evs).
Definition tx_before (evs : list event) : s_tx :=
  match session_of INS_SIGN (before_last evs) with Some (_, b) => description b | None => s_empty end.
Definition path_before (evs : list event) : list N :=
  match session_of INS_SIGN (before_last evs) with Some (s, _) => start_path (start_data s) | None => [] end.

Lemma signs : forall evs, playable evs = true -> trace evs <> [] -> signature (last (trace evs) NO_OBS) <> None ->
  exists sig, history toy TOY_KEY (before_last evs ++ [last (trace evs) NO_OBS]) (final evs) /\
    signature (last (trace evs) NO_OBS) = Some sig.
Proof.
  intros evs P Hn S. destruct (signature (last (trace evs) NO_OBS)) as [sig|] eqn:E; [|congruence].
  exists sig. split; [|reflexivity]. pose proof (trace_history _ P) as H. unfold before_last. rewrite <- (app_removelast_last NO_OBS) by exact Hn. exact H.
Qed.
Lemma session_before : forall evs, session_of INS_SIGN (before_last evs) <> None ->
  exists start body, session_of INS_SIGN (before_last evs) = Some (start, body) /\ description body = tx_before evs /\ start_path (start_data start) = path_before evs.
Proof.
  intros evs H. unfold tx_before, path_before. destruct (session_of INS_SIGN (before_last evs)) as [[s b]|]; [|congruence]. eauto.
Qed.
(** A decidable form of [~ intended_change]. *)
Definition intended_b (signing : list N) (before : list s_output) (o : s_output) : bool :=
  match so_dest o with
  | Some (SD_CHANGE p) =>
      (nth 2 p 0 =? nth 2 signing 0) && (nth 3 p 0 =? nth 3 signing 0) && (nth 4 p 0 <? nth 4 signing 0 + 20) ||
      match last_shown_change before with Some q => bytes_eqb p q | None => false end
  | _ => false
  end.
Lemma intended_dec : forall signing before o, intended_change signing before o -> intended_b signing before o = true.
Proof.
  intros signing before o (p & D & H). unfold intended_b. rewrite D. destruct H as [(H1 & H2 & H3)|H].
  - apply N.eqb_eq in H1, H2. apply N.ltb_lt in H3. rewrite H1, H2, H3. reflexivity.
  - rewrite H. apply orb_true_iff. right. apply bytes_eqb_eq. reflexivity.
Qed.
Lemma other_account : exists E key tr o st sig start body before x after p, env_ok E /\ history E key (tr ++ [o]) st /\ signature o = Some sig /\
  session_of INS_SIGN tr = Some (start, body) /\ sx_outputs (description body) = before ++ x :: after /\
  output_complete x = true /\ so_shown x = false /\ so_dest x = Some (SD_CHANGE p) /\
  ~ intended_change (start_path (start_data start)) before x /\ nth 2 p 0 <> nth 2 (start_path (start_data start)) 0.
Proof.
  destruct (signs OTHER_ACCOUNT) as (sig & H & Sg); try (vm_compute; congruence).
  destruct (session_before OTHER_ACCOUNT) as (start & body & S1 & S2 & S3); try (vm_compute; congruence).
  exists toy, TOY_KEY, (before_last OTHER_ACCOUNT), (last (trace OTHER_ACCOUNT) NO_OBS), (final OTHER_ACCOUNT), sig, start, body.
  exists [], (hd (mk_so 0 0 0 0 0 None [] [] false false) (sx_outputs (tx_before OTHER_ACCOUNT))), [], (wallet 5 0 3).
  split; [exact toy_ok|]. do 3 (split; [assumption|]). rewrite S2, S3. do 4 (split; [vm_compute; reflexivity|]). split.
  - intro K. apply intended_dec in K. revert K. vm_compute. discriminate.
  - vm_compute. discriminate.
Qed.
Lemma far_change : exists E key tr o st sig start body before x after p, env_ok E /\ history E key (tr ++ [o]) st /\ signature o = Some sig /\
  session_of INS_SIGN tr = Some (start, body) /\ sx_outputs (description body) = before ++ x :: after /\
  output_complete x = true /\ so_shown x = false /\ so_dest x = Some (SD_CHANGE p) /\
  ~ intended_change (start_path (start_data start)) before x /\ nth 4 (start_path (start_data start)) 0 + 20 <= nth 4 p 0.
Proof.
  destruct (signs FAR_CHANGE) as (sig & H & Sg); try (vm_compute; congruence).
  destruct (session_before FAR_CHANGE) as (start & body & S1 & S2 & S3); try (vm_compute; congruence).
  exists toy, TOY_KEY, (before_last FAR_CHANGE), (last (trace FAR_CHANGE) NO_OBS), (final FAR_CHANGE), sig, start, body.
  exists (removelast (sx_outputs (tx_before FAR_CHANGE))), (last (sx_outputs (tx_before FAR_CHANGE)) (mk_so 0 0 0 0 0 None [] [] false false)), [], (wallet 7 1 5000).
  split; [exact toy_ok|]. do 3 (split; [assumption|]). rewrite S2, S3. do 4 (split; [vm_compute; reflexivity|]). split.
  - intro K. apply intended_dec in K. revert K. vm_compute. discriminate.
  - vm_compute. discriminate.
Qed.
(** The same screen for change of different value and tokens. *)
Lemma change_hidden : exists E key tr1 st1 tr2 st2 q1 q2 f pages start1 body1 before1 o1 start2 body2 before2 o2,
  env_ok E /\ history E key tr1 st1 /\ history E key tr2 st2 /\
  on_screen tr1 = Some (q1, U_STX_OUTPUT, f, pages) /\ on_screen tr2 = Some (q2, U_STX_OUTPUT, f, pages) /\
  session_of INS_SIGN tr1 = Some (start1, body1) /\ session_of INS_SIGN tr2 = Some (start2, body2) /\
  sx_outputs (description body1) = before1 ++ [o1] /\ sx_outputs (description body2) = before2 ++ [o2] /\
  (exists p, so_dest o1 = Some (SD_CHANGE p) /\ so_dest o2 = Some (SD_CHANGE p)) /\
  so_value o1 <> so_value o2 /\
  tokens_of (description body1) o1 <> tokens_of (description body2) o2.
Proof.
  set (a := CHANGE_SCREEN 1 1). set (b := CHANGE_SCREEN 1000000000 1000).
  assert (H1 : history toy TOY_KEY (trace a) (final a)) by (apply trace_history; vm_compute; reflexivity).
  assert (H2 : history toy TOY_KEY (trace b) (final b)) by (apply trace_history; vm_compute; reflexivity).
  exists toy, TOY_KEY, (trace a), (final a), (trace b), (final b). eexists _, _, _, _.
  exists (nth 5 (trace a) NO_OBS), (body_of a), [], (hd (mk_so 0 0 0 0 0 None [] [] false false) (sx_outputs (tx_of a))).
  exists (nth 5 (trace b) NO_OBS), (body_of b), [], (hd (mk_so 0 0 0 0 0 None [] [] false false) (sx_outputs (tx_of b))).
  split; [exact toy_ok|]. split; [exact H1|]. split; [exact H2|]. do 6 (split; [vm_compute; reflexivity|]).
  split; [exists (wallet 0 0 100); split; vm_compute; reflexivity|]. split; vm_compute; discriminate.
Qed.

(** A check for [no_forgery]: for every split. *)
Definition answered (b : bytes) (o : obs) : bool := existsb (fun x => match x with OResp c SW_OK => bytes_eqb b c | _ => false end) (snd o).
Fixpoint unforged_b (pre tr : list obs) : bool :=
  match tr with
  | [] => true
  | c :: t => match continuation INS_SIGN c with
              | Some (sub, data) => if sub =? 0x12 then existsb (answered (frame_body data ++ frame_tag data)) pre else true
              | None => true
              end && unforged_b (pre ++ [c]) t
  end.
Lemma unforged_dec : forall tr pre0, unforged_b pre0 tr = true -> forall pre c post data, tr = pre ++ c :: post ->
  continuation INS_SIGN c = Some (0x12, data) -> exists o, In o (pre0 ++ pre) /\ In (OResp (frame_body data ++ frame_tag data) SW_OK) (snd o).
Proof.
  intro tr. induction tr as [|x tr IH]; intros pre0 H pre c post data E C; [destruct pre; discriminate|].
  cbn [unforged_b] in H. apply andb_true_iff in H as [H1 H2]. destruct pre as [|y pre].
  - injection E as -> ->. rewrite C in H1. change (18 =? 18) with true in H1. cbv iota in H1. apply existsb_exists in H1 as (o & Ho & Ha).
    exists o. rewrite app_nil_r. split; [exact Ho|]. unfold answered in Ha. apply existsb_exists in Ha as (z & Hz & Hb).
    destruct z as [b s| | | | ]; try discriminate Hb. destruct s; try discriminate Hb. apply bytes_eqb_eq in Hb. subst b. exact Hz.
  - injection E as -> ->. destruct (IH _ H2 _ _ _ _ eq_refl C) as (o & Ho & Ha). exists o. split; [|exact Ha]. rewrite <- app_assoc in Ho. exact Ho.
Qed.
Lemma sample_no_forgery : no_forgery (trace SIGN_ALL).
Proof.
  intros pre c post data E C. assert (H : unforged_b [] (trace SIGN_ALL) = true) by (vm_compute; reflexivity).
  exact (unforged_dec _ [] H _ _ _ _ E C).
Qed.
