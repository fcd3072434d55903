(** A wallet that sends the commands of [SpecHost] for a box gets its frames. *)
From Verif Require Import Lib Gve CodecProofs Env SpecVlq Bip32 ErgoTree Address Schnorr TxTable TxBox InputFrame UiFlow P2pkOp App SpecText SpecTree SpecTrace SpecTx SpecAmounts SpecApdu
  SpecScreen SpecRequest SpecDispatch SpecSign SpecRules SpecAccept SpecAttest SpecStart SpecHost Moves BoxProofs SignInv SignInput SignRest TraceSign TraceAttest
  TraceScreen TraceShow TraceUb FlowProofs DispatchProofs RequestProofs SessionProofs AttestProofs AcceptInput AcceptFrame AcceptOutput AcceptProofs AttestAccept StartAccept OpenAccept.

#[local] Arguments N.eqb : simpl never.
#[local] Arguments N.ltb : simpl never.
#[local] Arguments N.leb : simpl never.
#[local] Arguments N.sub : simpl never.
#[local] Arguments blen : simpl never.
#[local] Arguments num : simpl never.
#[local] Arguments slice : simpl never.

(** ** Chains of admissible commands *)

Section Chain.
  Context {D : Type} (next : D -> N -> bytes -> D) (adm : D -> N -> bytes -> Prop).
  Definition after (d : D) (l : list command) : D := fold_left (fun d c => next d (fst c) (snd c)) l d.
  Fixpoint chain (d : D) (l : list command) : Prop :=
    match l with
    | [] => True
    | c :: t => adm d (fst c) (snd c) /\ chain (next d (fst c) (snd c)) t
    end.
  Lemma chain_app : forall l m d, chain d l -> chain (after d l) m -> chain d (l ++ m).
  Proof. intros l. induction l as [|c l IH]; intros m d A B; [exact B|]. destruct A as [A1 A2]. split; [exact A1|]. apply IH; assumption. Qed.
  Lemma after_app : forall l m d, after d (l ++ m) = after (after d l) m.
  Proof. intros. unfold after. apply fold_left_app. Qed.
End Chain.

(** ** Packets *)

Lemma packets_cons : forall sub n l, (0 < n)%nat -> l <> [] -> packets sub n l = (sub, firstn n l) :: packets sub n (skipn n l).
Proof.
  intros sub n l Hn Hl. unfold packets. destruct l as [|x l]; [congruence|]. unfold entries at 1. cbn [length entries_fuel].
  cbn [map]. f_equal. f_equal. unfold entries. apply entries_fuel_enough; [exact Hn|]. rewrite skipn_length. cbn [length]. lia.
Qed.
Lemma firstn_items : forall A (enc : A -> bytes) m, forall k l, Forall (fun x => length (enc x) = m) l -> firstn (k * m) (concat (map enc l)) = concat (map enc (firstn k l)).
Proof.
  intros A enc m k. induction k as [|k IH]; intros l F; [reflexivity|]. destruct l as [|x l]; [rewrite !firstn_nil; reflexivity|]. pose proof (Forall_inv F) as H. cbv beta in H. apply Forall_inv_tail in F.
  cbn [firstn map concat Nat.mul]. rewrite firstn_app, firstn_all2 by (rewrite H; lia). f_equal. rewrite H. replace (m + k * m - m)%nat with (k * m)%nat by lia. apply IH, F.
Qed.
Lemma skipn_items : forall A (enc : A -> bytes) m, forall k l, Forall (fun x => length (enc x) = m) l -> skipn (k * m) (concat (map enc l)) = concat (map enc (skipn k l)).
Proof.
  intros A enc m k. induction k as [|k IH]; intros l F; [reflexivity|]. destruct l as [|x l]; [rewrite !skipn_nil; reflexivity|]. pose proof (Forall_inv F) as H. cbv beta in H. apply Forall_inv_tail in F.
  cbn [skipn map concat Nat.mul]. rewrite skipn_app, skipn_all2 by (rewrite H; lia). rewrite H. replace (m + k * m - m)%nat with (k * m)%nat by lia. apply IH, F.
Qed.
(** Items sent [k] to a packet: if each packet is admissible when the items [a] were
    received, all are. *)
Lemma items_chain : forall D (next : D -> N -> bytes -> D) adm sub A (enc : A -> bytes) m k (put : list A -> D) total,
  Forall (fun x => length (enc x) = m) total -> (0 < m)%nat -> (0 < k)%nat ->
  (forall a b, total = a ++ b -> b <> [] ->
     adm (put a) sub (concat (map enc (firstn k b))) /\ next (put a) sub (concat (map enc (firstn k b))) = put (a ++ firstn k b)) ->
  chain next adm (put []) (packets sub (k * m) (concat (map enc total))) /\
  after next (put []) (packets sub (k * m) (concat (map enc total))) = put total.
Proof.
  intros D next adm sub A enc m k put total Hm H0 Hk H.
  assert (G : forall n b a, (length b <= n)%nat -> total = a ++ b ->
    chain next adm (put a) (packets sub (k * m) (concat (map enc b))) /\ after next (put a) (packets sub (k * m) (concat (map enc b))) = put total).
  { induction n as [|n IH]; intros b a L Et.
    - destruct b; [|cbn in L; lia]. rewrite app_nil_r in Et. subst a. split; [exact I|reflexivity].
    - destruct b as [|x b0] eqn:Eb; [rewrite app_nil_r in Et; subst a; split; [exact I|reflexivity]|].
      rewrite <- Eb in *. assert (Nb : b <> []) by congruence. destruct (H a b Et Nb) as [H1 H2].
      pose proof Hm as Hb. rewrite Et in Hb. apply Forall_app in Hb as [_ Hb]. rewrite packets_cons.
      + rewrite firstn_items, skipn_items by exact Hb. cbn [chain fst snd]. unfold after. cbn [fold_left fst snd]. rewrite H2.
        destruct (IH (skipn k b) (a ++ firstn k b)) as [I1 I2].
        { rewrite skipn_length. assert (0 < length b)%nat by (subst b; cbn; lia). lia. }
        { rewrite <- app_assoc, firstn_skipn. exact Et. }
        split; [split; [exact H1|exact I1]|]. exact I2.
      + destruct k; [lia|]. destruct m; [lia|]. cbn. lia.
      + subst b. cbn [map concat]. apply Forall_inv in Hb. cbv beta in Hb. destruct (enc x); [cbn in Hb; lia|]. discriminate. }
  apply (G (length total)); [lia|reflexivity].
Qed.
Lemma one_each : forall l : bytes, concat (map (fun x => [x]) l) = l.
Proof. induction l as [|x l IH]; [reflexivity|]. cbn. f_equal. exact IH. Qed.
Lemma bytes_chain : forall D (next : D -> N -> bytes -> D) adm sub k (put : bytes -> D) total, (0 < k)%nat ->
  (forall a b, total = a ++ b -> b <> [] -> adm (put a) sub (firstn k b) /\ next (put a) sub (firstn k b) = put (a ++ firstn k b)) ->
  chain next adm (put []) (packets sub k total) /\ after next (put []) (packets sub k total) = put total.
Proof.
  intros D next adm sub k put total Hk H.
  pose proof (items_chain D next adm sub N (fun x => [x]) 1 k put total ltac:(apply Forall_forall; reflexivity) ltac:(lia) Hk) as G.
  rewrite one_each, Nat.mul_1_r in G. apply G. intros a b E N. rewrite one_each. apply H; assumption.
Qed.

(** ** The commands of a box are admissible *)

Lemma num_be : forall n v l, v < 256 ^ N.of_nat n -> num 0 n (be_bytes n v ++ l) = v.
Proof. intros n v l H. rewrite num_head by apply be_bytes_length. apply be_value_be_bytes. exact H. Qed.
Lemma num_be_end : forall n v, v < 256 ^ N.of_nat n -> num 0 n (be_bytes n v) = v.
Proof. intros n v H. rewrite num_all by apply be_bytes_length. apply be_value_be_bytes. exact H. Qed.
Lemma num_next : forall a l off n k, length a = k -> (k <= off)%nat -> num off n (a ++ l) = num (off - k) n l.
Proof. intros a l off n k <- H. apply num_skip. exact H. Qed.

Definition box_in (b : w_box) (t : option bytes) (toks : list (bytes * N)) (regs : bytes) : s_box :=
  mk_sb (wb_tx_id b) (wb_index b) (wb_value b) (blen (wb_tree b)) (wb_height b) (blen (wb_tokens b)) (blen (wb_regs b)) t toks regs.
Lemma header_box : forall b tl, box_fits b -> sb_start (box_header b ++ tl) = box_in b None [] [].
Proof.
  intros b tl ((F1 & _) & F2 & F3 & F4 & _ & F5 & _ & F6 & _ & _ & F7). unfold PART_MAX, TOKENS_MAX in *.
  unfold sb_start, box_header, box_in. rewrite <- !app_assoc.
  assert (L : forall n v, length (be_bytes n v) = n) by (intros; apply be_bytes_length).
  rewrite slice_head by exact F1.
  rewrite !(num_next (wb_tx_id b) _ _ _ 32) by (exact F1 || lia).
  repeat match goal with |- context [num ?off ?n (be_bytes ?k ?v ++ ?l)] => 
    lazymatch off with 0%nat => fail | _ => rewrite (num_next (be_bytes k v) l off n k (L k v)) by lia end end.
  cbn [Nat.sub]. rewrite !num_be by (cbn; lia).
  f_equal.
Qed.
Lemma prefix_less : forall A (l a b : list A), l = a ++ b -> b <> [] -> blen a < blen l.
Proof. intros A l a b -> N. unfold blen. rewrite app_length. destruct b; [congruence|]. cbn [length]. lia. Qed.
Lemma prefix_more : forall A (l a b : list A) k, l = a ++ b -> blen (a ++ firstn k b) <= blen l.
Proof. intros A l a b k ->. unfold blen. rewrite !app_length, firstn_length. lia. Qed.
Lemma firstn_last_or : forall A (l a b : list A) k, l = a ++ b -> blen (a ++ firstn k b) = blen l \/ length (firstn k b) = k.
Proof.
  intros A l a b k ->. unfold blen. rewrite !app_length, firstn_length. destruct (Nat.le_ge_cases (length b) k) as [H|H]; [left|right]; lia.
Qed.

Lemma tree_chain : forall b, chain sb_cmd admissible_box (box_in b None [] []) (script_packets 0x02 (wb_tree b)) /\
  after sb_cmd (box_in b None [] []) (script_packets 0x02 (wb_tree b)) = box_in b (Some (wb_tree b)) [] [].
Proof.
  intros b. unfold script_packets. destruct (wb_tree b) as [|x l] eqn:Et.
  - cbn [chain after fold_left fst snd]. split; [split; [|exact I]|reflexivity].
    cbn [admissible_box]. unfold box_chunk_ok, script_done, box_script, box_in. cbn [sb_tree sb_tree_len]. rewrite Et.
    split; [intros (t & K & _); discriminate|]. split; [cbn; lia|left; reflexivity].
  - rewrite <- Et in *.
    pose proof (bytes_chain s_box sb_cmd admissible_box 0x02 255 (fun a => box_in b (match a with [] => None | _ => Some a end) [] []) (wb_tree b) ltac:(lia)) as G.
    cbv beta iota in G. assert (K : match wb_tree b with [] => None | _ => Some (wb_tree b) end = Some (wb_tree b)) by (rewrite Et; reflexivity). rewrite K in G. apply G. clear G K.
    intros a c E Nn. pose proof (prefix_less _ _ _ _ E Nn) as Pl. cbn [admissible_box]. unfold box_chunk_ok, script_done.
    assert (Bs : box_script (box_in b (match a with [] => None | _ => Some a end) [] []) = a) by (unfold box_script, box_in; cbn [sb_tree]; destruct a; reflexivity).
    rewrite Bs. split.
    + split. { unfold box_in. cbn [sb_tree sb_tree_len]. intros (t & K1 & K2). destruct a; [discriminate|]. injection K1 as <-. lia. }
      split; [apply (prefix_more _ _ _ _ 255 E)|apply (firstn_last_or _ _ _ _ 255 E)].
    + destruct c as [|y c]; [congruence|]. cbn [firstn]. set (f := firstn 254 c). unfold sb_cmd, box_in.
      destruct a as [|z a]; reflexivity.
Qed.
Lemma regs_chain : forall b, blen (wb_tree b) <= PART_MAX -> chain sb_cmd admissible_box (box_in b (Some (wb_tree b)) (wb_tokens b) []) (packets 0x04 255 (wb_regs b)) /\
  after sb_cmd (box_in b (Some (wb_tree b)) (wb_tokens b) []) (packets 0x04 255 (wb_regs b)) = box_in b (Some (wb_tree b)) (wb_tokens b) (wb_regs b).
Proof.
  intros b _. apply (bytes_chain s_box sb_cmd admissible_box 0x04 255 (fun a => box_in b (Some (wb_tree b)) (wb_tokens b) a)); [lia|].
  intros a c E Nn. pose proof (prefix_less _ _ _ _ E Nn) as Pl. split; [|reflexivity]. cbn [admissible_box]. unfold box_registers_ok, script_done, box_in. cbn [sb_tree sb_tree_len sb_tokens sb_ntokens sb_regs sb_regs_len].
  split; [eauto|]. split; [reflexivity|]. split; [exact Pl|]. apply (prefix_more _ _ _ _ 255 E).
Qed.
Lemma nodup_prefix : forall A (a b : list A), NoDup (a ++ b) -> NoDup a.
Proof.
  intros A a b. induction a as [|x a IH]; intro H; [constructor|]. cbn in H. inversion H as [|? ? H1 H2]; subst. constructor; [|apply IH, H2].
  intro K. apply H1. apply in_or_app. left. exact K.
Qed.
Lemma tokens_chain : forall b, box_fits b ->
  chain sb_cmd admissible_box (box_in b (Some (wb_tree b)) [] []) (packets 0x03 240 (concat (map (fun t => fst t ++ be_bytes 8 (snd t)) (wb_tokens b)))) /\
  after sb_cmd (box_in b (Some (wb_tree b)) [] []) (packets 0x03 240 (concat (map (fun t => fst t ++ be_bytes 8 (snd t)) (wb_tokens b)))) = box_in b (Some (wb_tree b)) (wb_tokens b) [].
Proof.
  intros b (_ & _ & _ & _ & _ & _ & F1 & F2 & F3 & _).
  apply (items_chain s_box sb_cmd admissible_box 0x03 _ (fun t : bytes * N => fst t ++ be_bytes 8 (snd t)) 40 6 (fun a => box_in b (Some (wb_tree b)) a [])); [|lia|lia|].
  { eapply Forall_impl; [|exact F1]. intros t ((L & _) & _). cbv beta. rewrite app_length, be_bytes_length. lia. }
  intros a c E Nn. pose proof (prefix_less _ _ _ _ E Nn) as Pl.
  assert (Ok : Forall tok_ok (firstn 6 c)).
  { assert (Forall tok_ok (wb_tokens b)) as K by (eapply Forall_impl; [|exact F1]; intros t ((L & _) & V); split; assumption).
    rewrite E in K. apply Forall_app in K as [_ K]. rewrite <- (firstn_skipn 6 c) in K. apply Forall_app in K as [K _]. exact K. }
  assert (Nx : sb_cmd (box_in b (Some (wb_tree b)) a []) 3 (concat (map (fun t : bytes * N => fst t ++ be_bytes 8 (snd t)) (firstn 6 c))) = box_in b (Some (wb_tree b)) (a ++ firstn 6 c) []).
  { unfold sb_cmd, box_in. cbn [sb_tx_id sb_index sb_value sb_tree_len sb_height sb_ntokens sb_regs_len sb_tree sb_tokens sb_regs]. rewrite entries_tok by exact Ok. reflexivity. }
  split; [|exact Nx]. cbn [admissible_box]. rewrite Nx. unfold box_tokens_ok, script_done, box_in. cbn [sb_tree sb_tree_len sb_tokens sb_ntokens].
  split; [eauto|]. split; [exact Pl|]. split.
  { unfold entries_of. apply (proj1 (entries_whole 40 _ ltac:(lia))). rewrite entries_concat; [|lia|].
    - rewrite Forall_map. eapply Forall_impl; [|exact Ok]. intros t (L & _). cbv beta. rewrite app_length, be_bytes_length. lia.
    - rewrite Forall_map. eapply Forall_impl; [|exact Ok]. intros t (L & _). cbv beta. rewrite app_length, be_bytes_length. lia. }
  split; [apply (prefix_more _ _ _ _ 6 E)|].
  rewrite E, <- (firstn_skipn 6 c), app_assoc, map_app in F3. apply nodup_prefix in F3. exact F3.
Qed.
Lemma box_chain : forall b, box_fits b -> chain sb_cmd admissible_box (box_in b None [] []) (box_commands b) /\
  after sb_cmd (box_in b None [] []) (box_commands b) = described b.
Proof.
  intros b F. destruct (tree_chain b) as [A1 A2]. destruct (tokens_chain b F) as [B1 B2].
  assert (P : blen (wb_tree b) <= PART_MAX) by (destruct F as (_ & _ & _ & _ & _ & F & _); exact F). destruct (regs_chain b P) as [C1 C2].
  unfold box_commands. rewrite !after_app, A2, B2, C2. split; [|reflexivity].
  apply chain_app; [exact A1|]. rewrite A2. apply chain_app; [exact B1|]. rewrite B2. exact C1.
Qed.

(** ** Running the commands *)

Definition answers (outs : list output) : Prop := accepted outs = true -> exists b, outs = [OResp b SW_OK].
Lemma answers_resp : forall s, answers [resp s].
Proof. intros s A. destruct s; try discriminate A. exists []. reflexivity. Qed.
Lemma attest_outs : forall E st sub sid data r, sub <> 1 -> answers (snd (step E st (Apdu CLA INS_ATTEST sub sid data r))).
Proof.
  intros E st sub sid data r N1. rewrite attest_step. destruct ((sub =? 0) || (sid =? 0)); [apply answers_resp|].
  unfold handler_attest. destruct (st_busy st); [apply answers_resp|].
  assert (K : forall k : attest_ctx -> result, (forall c, answers (snd (k c))) ->
    answers (snd (match st_cmd st with
      | CMD_ATTEST => match st_ctx st with X_ATTEST c => if sid =? at_session c then k c else handler_err st SW_BAD_SESSION_ID | _ => handler_err st SW_UB end
      | _ => handler_err st SW_BAD_STATE end))).
  { intros k Hk. destruct (st_cmd st); try apply answers_resp. destruct (st_ctx st); try apply answers_resp. destruct (sid =? at_session c); [apply Hk|apply answers_resp]. }
  assert (C : forall call c, answers (snd (attest_box_call E st c call))).
  { intros call c. unfold attest_box_call. destruct (at_state c); try apply answers_resp. destruct (call (attest_bs c)) as [rr x].
    destruct rr; try apply answers_resp. unfold check_box_finished. destruct (bx_state (at_box (attest_put c x))); try apply answers_resp.
    destruct (box_id_hash (e_blake E) (attest_bs (attest_put c x)) (at_id (attest_put c x)) (at_index (attest_put c x))) as [[r2 y] id].
    destruct r2; try apply answers_resp. intros _. eexists. reflexivity. }
  assert (G : forall c, answers (snd (attest_get_frame E st c data))).
  { intros c. unfold attest_get_frame. destruct (at_state c); try apply answers_resp.
    destruct (bind (rd (read_u8 data)) (fun '(i, l) => finished l i)); [|apply answers_resp]. destruct (get_frames_count (blen (at_tokens c)) <=? a); [apply answers_resp|].
    intros _. eexists. reflexivity. }
  repeat match goal with |- context [match ?n with _ => _ end] =>
    lazymatch n with
    | sub => destruct n
    | Npos ?p => fail
    | _ => match type of n with positive => destruct n end
    end end; try apply answers_resp; try (exfalso; apply N1; reflexivity); apply K; intro; auto.
Qed.
Lemma attest_next : forall E key tr st sid start body sub data r, env_ok E -> history E key tr st -> attesting sid tr start body -> on_screen tr = None ->
  event_ok (Apdu CLA INS_ATTEST sub sid data r) -> sub <> 1 -> admissible_box (streamed_box start body) sub data ->
  exists b st', let o := (Apdu CLA INS_ATTEST sub sid data r, [OResp b SW_OK]) in
    history E key (tr ++ [o]) st' /\ attesting sid (tr ++ [o]) start (body ++ [o]) /\ on_screen (tr ++ [o]) = None /\
    streamed_box start (body ++ [o]) = sb_cmd (streamed_box start body) sub data.
Proof.
  intros E key tr st sid start body sub data r Henv H At Hs Hev N1 Ad.
  assert (A : accepted (snd (step E st (Apdu CLA INS_ATTEST sub sid data r))) = true) by (apply (accepts_box E key tr st sid start body sub data r); assumption).
  destruct (attest_outs E st sub sid data r N1 A) as (b & O). destruct (step E st (Apdu CLA INS_ATTEST sub sid data r)) as [st' outs] eqn:Es. cbn [snd] in *. subst outs.
  exists b, st'. cbv zeta.
  assert (C : continuation INS_ATTEST (Apdu CLA INS_ATTEST sub sid data r, [OResp b SW_OK]) = Some (sub, data)).
  { unfold continuation. apply N.eqb_neq in N1. rewrite N1. reflexivity. }
  assert (S : is_start INS_ATTEST (Apdu CLA INS_ATTEST sub sid data r, [OResp b SW_OK]) = false).
  { unfold is_start. apply N.eqb_neq in N1. rewrite N1. reflexivity. }
  split. { econstructor; eauto. intros [K|[]]. discriminate. }
  split.
  - destruct At as ((O1 & O2 & O3) & M). split; [split; [|split]|].
    + rewrite session_snoc, S, O1. reflexivity.
    + apply Forall_app. split; [exact O2|]. constructor; [|constructor]. left. auto.
    + destruct O3 as [O3|(b1 & e & b2 & -> & O3)]; [left; exact O3|right]. exists b1, e, (b2 ++ [(Apdu CLA INS_ATTEST sub sid data r, [OResp b SW_OK])]).
      rewrite <- app_assoc. split; [reflexivity|exact O3].
    + apply Forall_app. split; [exact M|]. constructor; [|constructor]. intros (cla & p2 & d & rr & K & _). discriminate K.
  - split; [rewrite on_screen_snoc; exact Hs|]. rewrite streamed_snoc. unfold sb_step. rewrite C. reflexivity.
Qed.
(** A chain of admissible commands is accepted. *)
Lemma attest_run : forall E key sid start r l tr st body, env_ok E -> history E key tr st -> attesting sid tr start body -> on_screen tr = None ->
  Forall (fun c => event_ok (Apdu CLA INS_ATTEST (fst c) sid (snd c) r) /\ fst c <> 1) l ->
  chain sb_cmd admissible_box (streamed_box start body) l ->
  exists tr' st', history E key (tr ++ tr') st' /\ attesting sid (tr ++ tr') start (body ++ tr') /\ on_screen (tr ++ tr') = None /\
    streamed_box start (body ++ tr') = after sb_cmd (streamed_box start body) l /\
    map fst tr' = map (fun c => Apdu CLA INS_ATTEST (fst c) sid (snd c) r) l /\ all_accepted tr'.
Proof.
  intros E key sid start r l. induction l as [|[sub data] l IH]; intros tr st body Henv H At Hs F C.
  - exists [], st. rewrite !app_nil_r. do 5 (split; [assumption || reflexivity|]). constructor.
  - destruct C as [C1 C2]. pose proof (Forall_inv F) as [Ev N1]. apply Forall_inv_tail in F. cbn [fst snd] in *.
    destruct (attest_next _ _ _ _ _ _ _ _ _ r Henv H At Hs Ev N1 C1) as (b & st1 & H1 & At1 & Hs1 & E1).
    rewrite <- E1 in C2. destruct (IH _ _ _ Henv H1 At1 Hs1 F C2) as (tr' & st' & R1 & R2 & R3 & R4 & R5 & R6).
    exists ((Apdu CLA INS_ATTEST sub sid data r, [OResp b SW_OK]) :: tr'), st'. rewrite <- app_assoc in R1, R2, R3. cbn [List.app] in *.
    rewrite <- app_assoc in R2, R4. do 3 (split; [assumption|]). split; [rewrite E1 in R4; exact R4|]. cbn [map fst]. rewrite R5. split; [reflexivity|]. constructor; [reflexivity|exact R6].
Qed.
Lemma attest_no_token : forall data a, parse_attest_init false data = Ok a -> ap_token a = 0.
Proof.
  intros data a H. unfold parse_attest_init in H.
  repeat match type of H with bind (rd ?x) _ = _ => destruct x as [[? ?]|]; [cbn [rd bind] in H|discriminate H] end.
  cbn [rd_token bind] in H. match type of H with finished ?x _ = _ => destruct x; [|discriminate H] end. unfold finished in H. injection H as <-. reflexivity.
Qed.
(** The start and its approval. *)
Lemma attest_opens : forall E key tr st b r, env_ok E -> history E key tr st -> on_screen tr = None -> box_fits b ->
  event_ok (Apdu CLA INS_ATTEST 1 1 (box_header b) r) -> id_drawn r ->
  exists f sid st', let s := (Apdu CLA INS_ATTEST 1 1 (box_header b) r, [OShow U_ATTEST f []]) in let a := (UiApprove, [OResp [sid] SW_OK]) in
    history E key (tr ++ [s; a]) st' /\ attesting sid (tr ++ [s; a]) s [a] /\ on_screen (tr ++ [s; a]) = None /\ 0 < sid < 256 /\
    streamed_box s [a] = box_in b None [] [].
Proof.
  intros E key tr st b r Henv H Hs F Ev Id.
  pose proof (header_box b [] F) as Hb. rewrite app_nil_r in Hb.
  assert (A : accepted (snd (step E st (Apdu CLA INS_ATTEST 1 1 (box_header b) r))) = true).
  { apply (accepts_attest E key tr st 1 (box_header b) r Henv H Ev). split; [exact Hs|]. split; [reflexivity|]. destruct F as ((F1 & _) & F2 & F3 & F4 & _ & F5 & _ & F6 & _ & _ & F7).
    split. { unfold whole_data, box_header, blen. rewrite !app_length, !be_bytes_length, F1. reflexivity. }
    rewrite Hb. do 3 (split; [assumption|]). exact Id. }
  destruct (step E st (Apdu CLA INS_ATTEST 1 1 (box_header b) r)) as [st1 outs] eqn:Es. cbn [snd] in A.
  pose proof (history_shape _ _ _ _ H) as Sh. pose proof (step_move _ _ _ _ _ Sh Es) as M.
  inversion M; subst; try discriminate; try congruence; try solve [other].
  - exfalso. destruct H0 as [(K & _)|[(_ & K & _)|[(_ & _ & K & _)|[(_ & _ & _ & _ & K)|(_ & K & _)]]]]; try discriminate K; try (apply K; reflexivity). subst s. discriminate A.
  - exfalso. match goal with K : handler_error s = true \/ _ |- _ => rename K into K0 end. destruct K0 as [K|(-> & _)]; [|discriminate A]. pose proof (err_not_accepted st s K) as K'. cbn [snd handler_err] in K'. unfold handler_err in K'. cbn [snd] in K'. congruence.
  - exfalso. match goal with K : parse_attest_init _ _ = Ok a |- _ => apply attest_no_token in K; rewrite K in * end. unfold is_known_application in *. rewrite andb_false_r in *. discriminate.
  - match goal with K : session_id_new_random _ _ = Some _ |- _ => destruct (random_id _ _ _ K) as (N0 & _ & I0) end.
    assert (R : 0 < session < 256). { destruct Ev as (_ & _ & _ & _ & _ & _ & _ & Ev). rewrite Forall_forall in Ev. apply Ev in I0. lia. }
    exists (attest_flow (ap_token a)), session. 
    set (s := (Apdu CLA INS_ATTEST 1 1 (box_header b) r, [OShow U_ATTEST (attest_flow (ap_token a)) []])) in *.
    set (ap := (UiApprove, [OResp [session] SW_OK])).
    match goal with K : step E st _ = (?x, _) |- _ => set (st1 := x) in * end.
    destruct (step E st1 UiApprove) as [st2 o2] eqn:E2.
    assert (O2 : o2 = [OResp [session] SW_OK]). { cbn in E2. injection E2 as _ <-. reflexivity. } subst o2.
    exists st2. cbv zeta.
    assert (Q : tr ++ [s; ap] = (tr ++ [s]) ++ [ap]) by (rewrite <- app_assoc; reflexivity). rewrite Q.
    split. { econstructor; [econstructor; [exact H|exact Ev|exact Es|]|exact I|exact E2|]; intros [K|[]]; discriminate K. }
    split; [split; [split; [|split]|]|split; [|split; [exact R|]]].
    + rewrite !session_snoc. reflexivity.
    + constructor; [|constructor]. intros b0 s0 [K|[]]. congruence.
    + right. exists [], UiApprove, []. split; [reflexivity|]. split; [left; reflexivity|constructor].
    + constructor; [|constructor]. intros (cla & p2 & d & rr & K & _). discriminate K.
    + rewrite !on_screen_snoc. reflexivity.
    + unfold streamed_box. cbn [fold_left]. change (sb_start (start_data s)) with (sb_start (box_header b)). rewrite Hb. reflexivity.
  - exfalso. match goal with K : attest_call ?s _ = _, Q : ?s = 1 |- _ => rewrite Q in K; discriminate K end.
  - exfalso. match goal with K : attest_call ?s _ = _, Q : ?s = 1 |- _ => rewrite Q in K; discriminate K end.
Qed.
(** The frames. *)
Lemma frames_run : forall E key sid start r b l tr st body, env_ok E -> history E key tr st -> attesting sid tr start body -> on_screen tr = None ->
  streamed_box start body = described b -> sb_complete (described b) = true -> rnd_ok r -> sid < 256 -> frame_total (described b) <= 256 ->
  Forall (fun i => i < frame_total (described b)) l ->
  exists st', history E key (tr ++ map (fun i => (Apdu CLA INS_ATTEST 0x05 sid [i] r, [OResp (tagged E key (frame_of E (described b) i)) SW_OK])) l) st'.
Proof.
  intros E key sid start r b l. induction l as [|i l IH]; intros tr st body Henv H At Hs D Cm R S W F.
  - exists st. rewrite app_nil_r. exact H.
  - pose proof (Forall_inv F) as Fi. cbv beta in Fi. apply Forall_inv_tail in F.
    assert (Ev : event_ok (Apdu CLA INS_ATTEST 5 sid [i] r)).
    { unfold event_ok. destruct R as [R1 R2]. do 3 (split; [reflexivity|]). split; [exact S|]. split; [apply bytes_ok_cons; split; [lia|reflexivity]|].
      split; [cbn; lia|]. split; assumption. }
    assert (Ad : admissible_box (streamed_box start body) 5 [i]). { rewrite D. split; [exact Cm|]. exists i. split; [reflexivity|exact Fi]. }
    destruct (attest_next _ _ _ _ _ _ _ _ _ r Henv H At Hs Ev ltac:(discriminate) Ad) as (a & st1 & H1 & At1 & Hs1 & D1). cbv zeta in *.
    pose proof (frame_answer _ _ _ _ _ _ _ _ Henv H1) as (start' & body' & i' & J1 & _ & _ & J2 & _ & _ & _ & J3).
    destruct At as ((A1 & _) & _). assert (start' = start /\ body' = body) as [-> ->] by (split; congruence). assert (i' = i) as -> by congruence.
    rewrite D in J3. subst a. rewrite D in D1. change (sb_cmd (described b) 5 [i]) with (described b) in D1.
    destruct (IH _ _ _ Henv H1 At1 Hs1 D1 Cm R S W F) as (st' & H'). exists st'. rewrite <- app_assoc in H'. exact H'.
Qed.
Lemma packets_ok : forall sub n l, (0 < n)%nat -> bytes_ok l = true ->
  Forall (fun c => fst c = sub /\ bytes_ok (snd c) = true /\ (length (snd c) <= n)%nat) (packets sub n l).
Proof.
  intros sub n l Hn. remember (length l) as k eqn:Ek. assert (Hk : (length l <= k)%nat) by lia. clear Ek. revert l Hk.
  induction k as [|k IH]; intros l Hk Ok; (destruct l as [|x l]; [constructor|]); [cbn in Hk; lia|].
  rewrite packets_cons by (assumption || discriminate). constructor.
  - cbn [fst snd]. split; [reflexivity|]. split; [apply bytes_ok_firstn, Ok|]. rewrite firstn_length. lia.
  - apply IH; [|apply bytes_ok_skipn, Ok]. rewrite skipn_length. cbn [length] in *. lia.
Qed.
Lemma script_packets_ok : forall sub l, bytes_ok l = true ->
  Forall (fun c => fst c = sub /\ bytes_ok (snd c) = true /\ (length (snd c) <= 255)%nat) (script_packets sub l).
Proof.
  intros sub [|x l] H.
  - constructor; [|constructor]. split; [reflexivity|]. split; [reflexivity|cbn; lia].
  - apply packets_ok; [lia|exact H].
Qed.
Lemma bytes_ok_concat : forall A (f : A -> bytes) l, Forall (fun x => bytes_ok (f x) = true) l -> bytes_ok (concat (map f l)) = true.
Proof.
  intros A f l F. induction l as [|x l IH]; [reflexivity|]. cbn [map concat]. rewrite bytes_ok_app, (Forall_inv F), IH by exact (Forall_inv_tail F). reflexivity.
Qed.
Lemma box_complete : forall b, sb_complete (described b) = true.
Proof. intros b. unfold sb_complete, described. cbn [sb_tree sb_tree_len sb_tokens sb_ntokens sb_regs sb_regs_len]. rewrite !N.eqb_refl. reflexivity. Qed.
Lemma numbers_below : forall n, Forall (fun i => i < n) (numbers n).
Proof. intros n. apply Forall_forall. intros i Hi. apply in_map_iff in Hi as (k & <- & Hk). apply in_seq in Hk. lia. Qed.

Theorem attest_whole : forall E key tr st b r, env_ok E -> history E key tr st -> on_screen tr = None -> box_fits b -> rnd_ok r -> id_drawn r ->
  exists sid tr1 st', history E key (tr ++ tr1 ++ frame_exchanges E key b sid r) st' /\
    map fst tr1 = attest_events b sid r /\ all_accepted tr1 /\ nth_error tr1 1 = Some (UiApprove, [OResp [sid] SW_OK]).
Proof.
  intros E key tr st b r Henv H Hs F R Id. destruct (box_chain b F) as [Ch Af].
  assert (Ft : blen (wb_tokens b) <= 20) by (destruct F as (_ & _ & _ & _ & _ & _ & _ & F & _); exact F).
  assert (Hh : (length (box_header b) <= 255)%nat /\ bytes_ok (box_header b) = true).
  { destruct F as ((F1 & F2) & _). unfold box_header. split; [rewrite !app_length, !be_bytes_length, F1; lia|]. rewrite !bytes_ok_app, !be_bytes_ok, F2. reflexivity. }
  assert (Ev : forall sub sid data, sub < 256 -> sid < 256 -> bytes_ok data = true -> (length data <= 255)%nat -> event_ok (Apdu CLA INS_ATTEST sub sid data r)).
  { intros. destruct R as [R1 R2]. unfold event_ok. do 2 (split; [reflexivity|]). do 6 (split; try assumption). }
  destruct (attest_opens E key tr st b r Henv H Hs F (Ev 1 1 (box_header b) ltac:(reflexivity) ltac:(reflexivity) (proj2 Hh) (proj1 Hh)) Id) as (f & sid & st1 & H1 & At1 & Hs1 & [S0 S] & D1).
  cbv zeta in *. rewrite <- D1 in Ch, Af.
  assert (Fc : Forall (fun c => event_ok (Apdu CLA INS_ATTEST (fst c) sid (snd c) r) /\ fst c <> 1) (box_commands b)).
  { assert (P : forall sub n l, (sub = 2 \/ sub = 3 \/ sub = 4) -> (n <= 255)%nat ->
      Forall (fun c => fst c = sub /\ bytes_ok (snd c) = true /\ (length (snd c) <= n)%nat) l ->
      Forall (fun c => event_ok (Apdu CLA INS_ATTEST (fst c) sid (snd c) r) /\ fst c <> 1) l).
    { intros sub n l Hsub Hn. apply Forall_impl. intros c (-> & B & L). split; [|destruct Hsub as [-> | [-> | ->]]; discriminate].
      apply Ev; [destruct Hsub as [-> | [-> | ->]]; reflexivity|exact S|exact B|lia]. }
    destruct F as (_ & _ & _ & _ & F1 & _ & F2 & _ & _ & F3 & _). unfold box_commands. apply Forall_app. split; [|apply Forall_app; split].
    - apply (P 2 255%nat); [auto|lia|]. apply script_packets_ok, F1.
    - apply (P 3 240%nat); [auto|lia|]. apply packets_ok; [lia|]. apply bytes_ok_concat. revert F2. apply Forall_impl.
      intros [id v] ((_ & B) & _). rewrite bytes_ok_app, be_bytes_ok. cbn [fst] in *. rewrite B. reflexivity.
    - apply (P 4 255%nat); [auto|lia|]. apply packets_ok; [lia|exact F3]. }
  destruct (attest_run _ _ _ _ r _ _ _ _ Henv H1 At1 Hs1 Fc Ch) as (tr' & st' & R1 & R2 & R3 & R4 & R5 & R6).
  rewrite Af in R4. set (s := (Apdu CLA INS_ATTEST 1 1 (box_header b) r, [OShow U_ATTEST f []])) in *. set (a := (UiApprove, [OResp [sid] SW_OK])) in *.
  assert (W : frame_total (described b) <= 256).
  { unfold frame_total, described. cbn [sb_tokens]. pose proof (N.div_le_mono (blen (wb_tokens b) + 3) 23 4 ltac:(lia) ltac:(lia)). change (23 / 4) with 5 in *. lia. }
  destruct (frames_run E key sid s r b (frame_numbers b) _ _ _ Henv R1 R2 R3 R4 (box_complete b) R S W (numbers_below _)) as (st'' & H'').
  exists sid, (s :: a :: tr'), st''. split; [rewrite <- !app_assoc in H''; exact H''|]. split; [cbn [map fst]; rewrite R5; reflexivity|].
  split; [constructor; [reflexivity|constructor; [reflexivity|exact R6]]|reflexivity].
Qed.
