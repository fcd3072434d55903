(** Pages and scripts, box ids and boxes. *)
From Coq Require Import String.
From Verif Require Import Lib Env Bip32 Address ErgoTree Schnorr TxTable TxBox TxFull Amounts OutputInfo UiFlow P2pkOp App
  SpecVlq SpecText SpecTree SpecTrace SpecTx SpecApdu SpecAmounts SpecScreen SpecPages SpecDispatch SpecRequest SpecSign SpecRules SpecScript
  CodecProofs TextProofs Base58Proofs BoxProofs AmountProofs TreeProofs Moves SignInv SignInput SignOutput SignRest SignShow
  TraceSign TraceAttest AttestProofs TraceScreen PageProofs TraceShow DispatchProofs FlowProofs RequestProofs SessionProofs SignedProofs RulesProofs OutputRules FrameRules Toy RulesToy.

#[local] Arguments N.eqb : simpl never.
#[local] Arguments N.ltb : simpl never.
#[local] Arguments N.leb : simpl never.
#[local] Arguments N.sub : simpl never.
#[local] Arguments blen : simpl never.
#[local] Arguments num : simpl never.
#[local] Arguments slice : simpl never.

Lemma app_inj_length : forall A (a b c d : list A), a ++ b = c ++ d -> length a = length c -> a = c /\ b = d.
Proof.
  intros A a. induction a as [|x a IH]; intros b [|y c] d E L; try discriminate L; [split; [reflexivity|exact E]|].
  cbn in E, L. injection E as -> E. apply IH in E as [-> ->]; [split; reflexivity|lia].
Qed.

(** ** Pages *)

Lemma address_inj : forall E title n1 n2 type c1 c2 pg, env_ok E -> n1 < 200 -> n2 < 200 -> type < 10 ->
  bytes_ok c1 = true -> bytes_ok c2 = true -> length c1 = length c2 ->
  address_page E title n1 type c1 pg -> address_page E title n2 type c2 pg -> n1 = n2 /\ c1 = c2.
Proof.
  intros E title n1 n2 type c1 c2 pg Henv H1 H2 Ht B1 B2 L (t1 & A1 & P1) (t2 & A2 & P2). rewrite P1 in P2.
  assert (t1 = t2) by congruence. subst t2.
  assert (K : forall n c, n < 200 -> bytes_ok c = true -> bytes_ok (address E n type c) = true).
  { intros n c Hn Hc. unfold address. cbv zeta. rewrite bytes_ok_app. rewrite bytes_ok_firstn by (apply ok_blake_bytes; exact Henv).
    rewrite andb_true_r. apply bytes_ok_cons. split; [lia|exact Hc]. }
  pose proof (is_base58_inj _ _ _ (K _ _ H1 B1) (K _ _ H2 B2) A1 A2) as EQ. unfold address in EQ. cbv zeta in EQ.
  cbn [List.app] in EQ. assert (n1 = n2) by (assert (n1 + type = n2 + type) by congruence; lia). split; [exact H|].
  assert (EQ' : c1 ++ firstn 4 (e_blake E ((n1 + type) :: c1)) = c2 ++ firstn 4 (e_blake E ((n2 + type) :: c2))) by congruence.
  apply app_inj_length in EQ' as [Q _]; assumption.
Qed.
Lemma page_determines : forall E n1 n2 d1 d2 pg, env_ok E -> n1 < 200 -> n2 < 200 ->
  match d1 with SD_TREE t => bytes_ok t = true | SD_CHANGE p => Forall (fun x => x < 2 ^ 32) p | _ => True end ->
  match d2 with SD_TREE t => bytes_ok t = true | SD_CHANGE p => Forall (fun x => x < 2 ^ 32) p | _ => True end ->
  destination_page E n1 d1 pg -> destination_page E n2 d2 pg ->
  d1 = d2 \/ (exists h, script_of E h d1 /\ script_of E h d2) \/
  ((exists p q, d1 = SD_CHANGE p /\ d2 = SD_CHANGE q) /\ (long_path d1 \/ long_path d2)).
Proof.
  intros E n1 n2 d1 d2 pg Henv H1 H2 B1 B2 P1 P2.
  assert (T : forall (a b : string) x y, pg = Ok (str a, x) -> pg = Ok (str b, y) -> str a = str b) by (intros; congruence).
  assert (Tree : forall n t, destination_page E n (SD_TREE t) pg -> bytes_ok t = true ->
    (exists pk, is_p2pk_tree pk t /\ bytes_ok pk = true /\ address_page E "Address" n 1 pk pg) \/
    (exists h, script_of E h (SD_TREE t) /\ bytes_ok h = true /\ length h = 24%nat /\ address_page E "Script Hash" n 2 h pg)).
  { intros n t [(pk & K1 & K2)|[(h & K1 & K2)|(K1 & K2 & K3)]] Bt.
    - left. exists pk. split; [exact K1|]. split; [|exact K2]. destruct K1 as (-> & _). rewrite bytes_ok_app in Bt. apply andb_true_iff in Bt. tauto.
    - right. exists h. split; [exists t; split; [reflexivity|left; exact K1]|]. destruct K1 as (-> & L). rewrite !bytes_ok_app in Bt.
      apply andb_true_iff in Bt as [_ Bt]. apply andb_true_iff in Bt as [Bt _]. auto.
    - right. exists (firstn 24 (e_blake E t)). split; [exists t; split; [reflexivity|right; auto]|].
      split; [apply bytes_ok_firstn, ok_blake_bytes; exact Henv|]. split; [|exact K3]. rewrite firstn_length, ok_blake_len by exact Henv. reflexivity. }
  assert (Tt : forall n t, destination_page E n (SD_TREE t) pg -> bytes_ok t = true -> exists x, pg = Ok (str "Address", x) \/ pg = Ok (str "Script Hash", x)).
  { intros n t K Bt. destruct (Tree _ _ K Bt) as [(pk & _ & _ & x & _ & ->)|(h & _ & _ & _ & x & _ & ->)]; eauto. }
  assert (Tc : forall p, path_page "Change" p pg -> (exists x, pg = Ok (str "Change", x)) \/ pg = Fail SW_BIP32_FORMATTING_FAILED).
  { intros p (x & _ & [[_ ->]|[_ [-> | ->]]]); eauto. }
  destruct d1 as [t1| |p1], d2 as [t2| |p2]; cbn [destination_page] in P1, P2; try (left; reflexivity).
  - destruct (Tree _ _ P1 B1) as [(k1 & Q1 & Q2 & Q3)|(h1 & Q1 & Q2 & Q3 & Q4)]; destruct (Tree _ _ P2 B2) as [(k2 & R1 & R2 & R3)|(h2 & R1 & R2 & R3 & R4)].
    + left. pose proof Q1 as (E1 & L1 & _). pose proof R1 as (E2 & L2 & _).
      destruct (address_inj _ _ _ _ _ _ _ _ Henv H1 H2 (eq_refl : 1 < 10) Q2 R2 ltac:(congruence) Q3 R3) as [_ ->]. congruence.
    + exfalso. destruct Q3 as (x & _ & Q3), R4 as (y & _ & R4). pose proof (T _ _ _ _ Q3 R4) as Z. vm_compute in Z. discriminate Z.
    + exfalso. destruct Q4 as (x & _ & Q4), R3 as (y & _ & R3). pose proof (T _ _ _ _ Q4 R3) as Z. vm_compute in Z. discriminate Z.
    + right. left. exists h1. split; [exact Q1|].
      destruct (address_inj _ _ _ _ _ _ _ _ Henv H1 H2 (eq_refl : 2 < 10) Q2 R2 ltac:(congruence) Q4 R4) as [_ ->]. exact R1.
  - exfalso. destruct (Tt _ _ P1 B1) as [x [K|K]]; pose proof (T _ _ _ _ K P2) as Z; vm_compute in Z; discriminate Z.
  - exfalso. destruct (Tt _ _ P1 B1) as [x [K|K]]; (destruct (Tc _ P2) as [[y Q]|Q]; [pose proof (T _ _ _ _ K Q) as Z; vm_compute in Z; discriminate Z|congruence]).
  - exfalso. destruct (Tt _ _ P2 B2) as [x [K|K]]; pose proof (T _ _ _ _ K P1) as Z; vm_compute in Z; discriminate Z.
  - exfalso. destruct (Tc _ P2) as [[y Q]|Q]; [pose proof (T _ _ _ _ P1 Q) as Z; vm_compute in Z; discriminate Z|congruence].
  - exfalso. destruct (Tt _ _ P2 B2) as [x [K|K]]; (destruct (Tc _ P1) as [[y Q]|Q]; [pose proof (T _ _ _ _ K Q) as Z; vm_compute in Z; discriminate Z|congruence]).
  - exfalso. destruct (Tc _ P1) as [[y Q]|Q]; [pose proof (T _ _ _ _ P2 Q) as Z; vm_compute in Z; discriminate Z|congruence].
  - destruct P1 as (x1 & X1 & [[L1 E1]|[L1 E1]]); [destruct P2 as (x2 & X2 & [[L2 E2]|[L2 E2]])|].
    + left. assert (x1 = x2) by congruence. subst x2. f_equal. eapply is_path_text_inj; eauto.
    + right. right. split; [eauto|]. right. exists p2, x2. auto.
    + right. right. split; [eauto|]. left. exists p1, x1. auto.
Qed.
Lemma on_screen_facts : forall E key tr st n d pages, env_ok E -> history E key tr st -> output_on_screen tr n d pages ->
  (n = 0 \/ n = 16) /\ match d with SD_TREE t => bytes_ok t = true | SD_CHANGE p => Forall (fun x => x < 2 ^ 32) p | _ => True end /\
  exists p rest, pages = p :: rest /\ destination_page E n d p.
Proof.
  intros E key tr st n d pages Henv H (q & f & start & body & before & o & Ho & S & -> & O1 & O2).
  destruct (paged_session _ _ _ _ _ _ _ _ Henv H Ho (or_introl eq_refl)) as (g & start' & body' & s & _ & _ & _ & X4 & X5 & _ & _ & _ & X9 & _).
  rewrite S in X4. injection X4 as <- <-. split; [|split].
  - destruct (started_data _ _ _ _ X5) as [_ <-]. destruct X5 as (p2 & data & r & ff & sk & ch & pk & w & _ & _ & _ & _ & _ & _ & _ & Hs & _).
    apply supported_small. exact Hs.
  - pose proof (tb_outputs _ X9) as F. rewrite O1 in F. apply Forall_app in F as [_ F]. inversion F; subst. unfold out_bytes_ok in *. rewrite O2 in *.
    destruct d; [assumption|exact I|assumption].
  - destruct (output_tokens_shown _ _ _ _ _ _ _ Henv H Ho) as (start' & body' & before' & o' & dest & p1 & rest & S' & Q1 & _ & Q3 & -> & P & _).
    rewrite S in S'. injection S' as <- <-. rewrite O1 in Q1. apply snoc_inj in Q1 as [_ <-]. rewrite O2 in Q3. injection Q3 as <-. eauto.
Qed.
Lemma same_page : forall E key1 tr1 st1 n1 d1 key2 tr2 st2 n2 d2 p rest1 rest2, env_ok E ->
  history E key1 tr1 st1 -> output_on_screen tr1 n1 d1 (p :: rest1) -> history E key2 tr2 st2 -> output_on_screen tr2 n2 d2 (p :: rest2) ->
  d1 = d2 \/ (exists h, script_of E h d1 /\ script_of E h d2) \/
  ((exists p q, d1 = SD_CHANGE p /\ d2 = SD_CHANGE q) /\ (long_path d1 \/ long_path d2)).
Proof.
  intros E key1 tr1 st1 n1 d1 key2 tr2 st2 n2 d2 p rest1 rest2 Henv H1 O1 H2 O2.
  destruct (on_screen_facts _ _ _ _ _ _ _ Henv H1 O1) as (A1 & A2 & p1 & r1 & A3 & A4).
  destruct (on_screen_facts _ _ _ _ _ _ _ Henv H2 O2) as (B1 & B2 & p2 & r2 & B3 & B4).
  assert (p1 = p) by congruence. assert (p2 = p) by congruence. subst p1 p2.
  eapply page_determines; eauto; lia.
Qed.
Lemma same_address : forall E key1 tr1 st1 n1 d1 key2 tr2 st2 n2 d2 pk p rest1 rest2, env_ok E ->
  history E key1 tr1 st1 -> output_on_screen tr1 n1 d1 (p :: rest1) -> history E key2 tr2 st2 -> output_on_screen tr2 n2 d2 (p :: rest2) ->
  (exists t, d1 = SD_TREE t /\ is_p2pk_tree pk t) -> d2 = d1 /\ n2 = n1.
Proof.
  intros E key1 tr1 st1 n1 d1 key2 tr2 st2 n2 d2 pk p rest1 rest2 Henv H1 O1 H2 O2 (t & -> & Ht).
  assert (D : d2 = SD_TREE t).
  { destruct (same_page _ _ _ _ _ _ _ _ _ _ _ _ _ _ Henv H1 O1 H2 O2) as [K|[(h & (t1 & K1 & K2) & _)|((p1 & q1 & K & _) & _)]]; [congruence| |discriminate].
    exfalso. assert (t1 = t) by congruence. subst t1. destruct K2 as [K2|(K2 & _)]; [|exact (K2 _ Ht)].
    destruct Ht as (-> & _), K2 as (K2 & _). discriminate K2. }
  subst d2. split; [reflexivity|].
  destruct (on_screen_facts _ _ _ _ _ _ _ Henv H1 O1) as (A1 & A2 & p1 & r1 & A3 & A4).
  destruct (on_screen_facts _ _ _ _ _ _ _ Henv H2 O2) as (B1 & B2 & p2 & r2 & B3 & B4).
  assert (p1 = p) by congruence. assert (p2 = p) by congruence. subst p1 p2.
  assert (Q : forall n, destination_page E n (SD_TREE t) p -> address_page E "Address" n 1 pk p).
  { intros n [(k & K1 & K2)|[(h & K1 & _)|(K & _)]]; [|exfalso|exfalso; exact (K _ Ht)].
    - rewrite (p2pk_tree_inj _ _ _ Ht K1). exact K2.
    - destruct Ht as (-> & _), K1 as (K1 & _). discriminate K1. }
  assert (Bk : bytes_ok pk = true) by (destruct Ht as (-> & _); rewrite bytes_ok_app in A2; apply andb_true_iff in A2; tauto).
  destruct (address_inj _ _ n1 n2 _ _ _ _ Henv ltac:(lia) ltac:(lia) (eq_refl : 1 < 10) Bk Bk eq_refl (Q _ A4) (Q _ B4)) as [-> _]. reflexivity.
Qed.

(** ** Box ids *)

Lemma vlq_split : forall n m x y, vlq n ++ x = vlq m ++ y -> n = m /\ x = y.
Proof.
  intros n m x y. generalize (vlq_spec n), (vlq_spec m). generalize (vlq n) as a, (vlq m) as b. intros a b Ha. revert m b. induction Ha as [n Hn|n l Hn Ha IH]; intros m b Hb E.
  - inversion Hb; subst; cbn [List.app] in E; [split; congruence|]. exfalso. assert (n = m mod 128 + 128) by congruence. lia.
  - inversion Hb; subst; cbn [List.app] in E; [exfalso; assert (n mod 128 + 128 = m) by congruence; lia|].
    assert (E1 : n mod 128 + 128 = m mod 128 + 128) by congruence. assert (E2 : l ++ x = l0 ++ y) by congruence.
    destruct (IH _ _ H0 E2) as [E3 ->]. split; [|reflexivity]. rewrite (N.div_mod n 128), (N.div_mod m 128) by lia. lia.
Qed.
Lemma attested_wf : forall E key tr st b, env_ok E -> history E key tr st -> attested_box E key tr b -> sb_wf b /\ sb_complete b = true.
Proof.
  intros E key tr st b Henv H (pre & o & post & start & body & i & -> & S & -> & C & _).
  apply history_prefix in H as [st0 H]. split; [|exact C]. eapply session_box; eauto.
Qed.
Lemma id_bytes : forall E b b', no_collision E (box_bytes b) (box_bytes b') -> box_id E b = box_id E b' -> box_bytes b = box_bytes b'.
Proof. intros E b b' H K. apply H. exact K. Qed.
Lemma id_value : forall E key1 tr1 st1 b1 key2 tr2 st2 b2, env_ok E -> history E key1 tr1 st1 -> attested_box E key1 tr1 b1 ->
  history E key2 tr2 st2 -> attested_box E key2 tr2 b2 -> no_collision E (box_bytes b1) (box_bytes b2) ->
  box_id E b1 = box_id E b2 -> sb_value b1 = sb_value b2.
Proof.
  intros E key1 tr1 st1 b1 key2 tr2 st2 b2 Henv _ _ _ _ Hc Hi. apply id_bytes in Hi; [|exact Hc]. unfold box_bytes in Hi.
  apply vlq_split in Hi. tauto.
Qed.
Lemma tokens_split : forall l1 l2 x y, length l1 = length l2 -> Forall tok_ok l1 -> Forall tok_ok l2 ->
  concat (map (fun t => fst t ++ vlq (snd t)) l1) ++ x = concat (map (fun t => fst t ++ vlq (snd t)) l2) ++ y -> l1 = l2 /\ x = y.
Proof.
  induction l1 as [|[i v] l1 IH]; intros [|[j w] l2] x y L F1 F2 E; try discriminate L; [split; [reflexivity|exact E]|].
  cbn [map concat fst snd] in E. rewrite <- !app_assoc in E. inversion F1 as [|? ? [T1 _] F1']; subst. inversion F2 as [|? ? [T2 _] F2']; subst. cbn [fst] in *.
  apply app_inj_length in E as [-> E]; [|congruence]. apply vlq_split in E as [-> E]. apply IH in E as [-> ->]; auto.
Qed.
Lemma id_tokens : forall E key1 tr1 st1 b1 key2 tr2 st2 b2, env_ok E -> history E key1 tr1 st1 -> attested_box E key1 tr1 b1 ->
  history E key2 tr2 st2 -> attested_box E key2 tr2 b2 -> no_collision E (box_bytes b1) (box_bytes b2) ->
  box_id E b1 = box_id E b2 -> sb_tree_len b1 = sb_tree_len b2 ->
  sb_tree b1 = sb_tree b2 /\ sb_height b1 = sb_height b2 /\ sb_tokens b1 = sb_tokens b2 /\ (sb_regs_len b1 = sb_regs_len b2 -> b1 = b2).
Proof.
  intros E key1 tr1 st1 b1 key2 tr2 st2 b2 Henv H1 A1 H2 A2 Hc Hi Hl.
  destruct (attested_wf _ _ _ _ _ Henv H1 A1) as [W1 C1]. destruct (attested_wf _ _ _ _ _ Henv H2 A2) as [W2 C2].
  apply id_bytes in Hi; [|exact Hc]. unfold box_bytes in Hi. apply vlq_split in Hi as [Ev Hi].
  unfold sb_complete in C1, C2. apply andb_true_iff in C1 as [C1 R1], C2 as [C2 R2]. apply andb_true_iff in C1 as [C1 K1], C2 as [C2 K2].
  destruct (sb_tree b1) as [t1|] eqn:T1; [|discriminate C1]. destruct (sb_tree b2) as [t2|] eqn:T2; [|discriminate C2].
  apply N.eqb_eq in C1, C2, R1, R2, K1, K2. apply app_inj_length in Hi as [-> Hi]; [|unfold blen in *; lia].
  apply vlq_split in Hi as [Eh Hi]. cbn [List.app] in Hi.
  assert (Ec : blen (sb_tokens b1) = blen (sb_tokens b2)) by congruence. assert (Hi' := f_equal (@tl N) Hi). cbn [tl] in Hi'.
  apply tokens_split in Hi' as [Et Hi']; [|unfold blen in *; lia|apply W1|apply W2].
  do 3 (split; [try assumption; reflexivity|]). intro Er.
  assert (X : (if sb_regs_len b1 =? 0 then [0] else sb_regs b1) = (if sb_regs_len b2 =? 0 then [0] else sb_regs b2) /\
              sb_tx_id b1 ++ vlq (sb_index b1) = sb_tx_id b2 ++ vlq (sb_index b2)).
  { apply app_inj_length; [exact Hi'|]. rewrite Er. destruct (sb_regs_len b2 =? 0); [reflexivity|]. unfold blen in *. lia. }
  destruct X as [X1 X2]. apply app_inj_length in X2 as [Ex X2]; [|rewrite (sw_id _ W1), (sw_id _ W2); reflexivity].
  rewrite <- (app_nil_r (vlq (sb_index b1))), <- (app_nil_r (vlq (sb_index b2))) in X2. apply vlq_split in X2 as [Ei _].
  assert (Eg : sb_regs b1 = sb_regs b2).
  { rewrite Er in X1. destruct (N.eqb_spec (sb_regs_len b2) 0) as [Z|Z]; [|exact X1]. rewrite Er, Z in *. unfold blen in *.
    destruct (sb_regs b1); [|cbn [length] in R1; lia]. destruct (sb_regs b2); [reflexivity|cbn [length] in R2; lia]. }
  assert (En : sb_ntokens b1 = sb_ntokens b2) by congruence. assert (Er2 : sb_tree b1 = sb_tree b2) by congruence. clear -Ev Hl Eh En Er Er2 Et Eg Ex Ei.
  destruct b1 as [x0 x1 x2 x3 x4 x5 x6 x7 x8 x9], b2 as [y0 y1 y2 y3 y4 y5 y6 y7 y8 y9].
  cbn [sb_tx_id sb_index sb_value sb_tree_len sb_height sb_ntokens sb_regs_len sb_tree sb_tokens sb_regs] in *. congruence.
Qed.

(** ** Samples *)

(** A script and the pay-to-script-hash tree of its hash, on the screen. *)
Definition SCRIPT : bytes := [0x10; 1; 2; 3; 4].
Definition HASHED : bytes :=
  [0x00; 0xea; 0x02; 0xd1; 0x93; 0xb4; 0xcb; 0xe4; 0xe3; 0x01; 0x0e; 0x04; 0x00; 0x04; 0x30; 0x0e; 0x18] ++
  firstn 24 (toy_hash SCRIPT) ++ [0xd4; 0x08; 0x01].
Definition TO_TREE (t : bytes) : list event := ONE_INPUT 1 ++ [output_head 1000000000 (blen t) 501 0 0; sign_cmd 0x16 t].
Definition screen_pages (evs : list event) : list page := match on_screen (trace evs) with Some (_, _, _, p) => p | None => [] end.
Definition screen_kind (evs : list event) : ui_kind := match on_screen (trace evs) with Some (_, k, _, _) => k | None => U_MENU end.
Lemma sample_on_screen : forall evs dest, screen_kind evs = U_STX_OUTPUT -> session_of INS_SIGN (trace evs) <> None ->
  match session_of INS_SIGN (trace evs) with Some (s, _) => start_network (start_data s) | None => 0 end = 0 ->
  match rev (sx_outputs (tx_of evs)) with o :: _ => so_dest o | [] => None end = Some dest ->
  output_on_screen (trace evs) 0 dest (screen_pages evs).
Proof.
  intros evs dest K S N D. unfold screen_kind in K. unfold screen_pages. destruct (on_screen (trace evs)) as [[[[q k] f] p]|] eqn:Eo; [|discriminate]. subst k.
  unfold tx_of, body_of in D. destruct (session_of INS_SIGN (trace evs)) as [[start body]|] eqn:Es; [|congruence].
  destruct (rev (sx_outputs (description body))) as [|o l] eqn:Er; [discriminate|].
  exists q, f, start, body, (rev l), o. do 2 (split; [assumption|]). split; [congruence|]. split; [|exact D].
  rewrite <- (rev_involutive (sx_outputs (description body))), Er. reflexivity.
Qed.
Lemma hash_page : exists E key tr1 st1 n1 d1 tr2 st2 n2 d2 pages, env_ok E /\
  history E key tr1 st1 /\ output_on_screen tr1 n1 d1 pages /\ history E key tr2 st2 /\ output_on_screen tr2 n2 d2 pages /\
  d1 <> d2 /\ dest_tree E d1 <> dest_tree E d2.
Proof.
  exists toy, TOY_KEY, (trace (TO_TREE SCRIPT)), (final (TO_TREE SCRIPT)), 0, (SD_TREE SCRIPT), (trace (TO_TREE HASHED)), (final (TO_TREE HASHED)), 0, (SD_TREE HASHED),
    (screen_pages (TO_TREE SCRIPT)).
  split; [exact toy_ok|]. split; [apply trace_history; vm_compute; reflexivity|].
  split; [apply sample_on_screen; vm_compute; try reflexivity; discriminate|]. split; [apply trace_history; vm_compute; reflexivity|].
  assert (Z : screen_pages (TO_TREE SCRIPT) = screen_pages (TO_TREE HASHED)) by (vm_compute; reflexivity). rewrite Z.
  split; [apply sample_on_screen; vm_compute; try reflexivity; discriminate|]. split; vm_compute; congruence.
Qed.

(** A box with a token; and the same bytes as a box without. *)
Definition TOKEN_Z : bytes := repeat 0xAA 16 ++ [5; 0] ++ repeat 0xBB 14.
Definition LONG_TREE : bytes := BOX_TREE ++ vlq 500 ++ [1] ++ repeat 0xAA 16.
Definition REST : bytes := repeat 0xBB 14 ++ vlq 1000 ++ [0].
Definition WITH_TOKEN : list event :=
  [ attest_start 1 (repeat 1 32) 2 1000000000 36 500 1 0 []; UiApprove;
    cmd_of INS_ATTEST 2 7 BOX_TREE; cmd_of INS_ATTEST 3 7 (TOKEN_Z ++ be_bytes 8 1000); cmd_of INS_ATTEST 5 7 [0] ].
Definition WITHOUT : list event :=
  WITH_TOKEN ++
  [ attest_start 1 (repeat 1 32) 2 1000000000 (blen LONG_TREE) 5 0 (blen REST) []; UiApprove;
    cmd_of INS_ATTEST 2 7 LONG_TREE; cmd_of INS_ATTEST 4 7 REST; cmd_of INS_ATTEST 5 7 [0] ].
Definition HIDDEN_FRAME : bytes := answer WITHOUT.
Definition HIDDEN : list event :=
  WITHOUT ++ SIGN_START ++
  [ header 1 0 0 2; sign_cmd 0x12 (HIDDEN_FRAME ++ be_bytes 4 0);
    output_head 999000000 36 501 0 0; sign_cmd 0x16 OTHER_TREE; UiApprove; output_head 1000000 0 501 0 0; sign_cmd 0x17 [];
    sign_cmd 0x20 []; UiApprove ].
(** The box of the attestation session before step [n]. *)
Definition box_at (tr : list obs) (n : nat) : s_box :=
  match session_of INS_ATTEST (firstn n tr) with Some (s, b) => streamed_box s b | None => sb_start [] end.
Lemma attested_at : forall E key tr n, (n < length tr)%nat -> session_of INS_ATTEST (firstn n tr) <> None ->
  sb_complete (box_at tr n) = true -> 0 < frame_total (box_at tr n) ->
  snd (nth n tr NO_OBS) = [OResp (tagged E key (frame_of E (box_at tr n) 0)) SW_OK] -> attested_box E key tr (box_at tr n).
Proof.
  intros E key tr n Hn Hs Hc Hf Ho. unfold box_at in *. destruct (session_of INS_ATTEST (firstn n tr)) as [[start body]|] eqn:Es; [|congruence].
  exists (firstn n tr), (nth n tr NO_OBS), (skipn (S n) tr), start, body, 0. split; [|split; [exact Es|split; [reflexivity|auto]]].
  rewrite <- (firstn_skipn n tr) at 1. f_equal. clear -Hn. revert tr Hn. induction n as [|n IH]; intros [|x tr] Hn; cbn [length] in Hn; try lia; [reflexivity|].
  cbn [skipn nth]. apply IH. lia.
Qed.
Lemma hidden_tokens : exists E key tr o st sig start body q f p1 p2 p3 b1 b2 i, env_ok E /\ history E key (tr ++ [o]) st /\ signature o = Some sig /\
  session_of INS_SIGN tr = Some (start, body) /\ on_screen tr = Some (q, U_STX_TX, f, [p1; p2; p3]) /\
  attested_box E key tr b1 /\ attested_box E key tr b2 /\ box_bytes b1 = box_bytes b2 /\
  sx_inputs (description body) = [i] /\ si_id i = box_id E b1 /\ sb_tokens b1 <> [] /\
  Forall (fun o => so_tokens o = []) (sx_outputs (description body)) /\ Forall (fun o => output_complete o = true) (sx_outputs (description body)).
Proof.
  destruct (signs HIDDEN) as (sig & H & Sg); try (vm_compute; congruence).
  destruct (session_before HIDDEN) as (start & body & S1 & S2 & _); try (vm_compute; congruence).
  assert (X : exists q f p1 p2 p3, on_screen (before_last HIDDEN) = Some (q, U_STX_TX, f, [p1; p2; p3])) by (vm_compute; eauto 10).
  destruct X as (q & f & p1 & p2 & p3 & X).
  exists toy, TOY_KEY, (before_last HIDDEN), (last (trace HIDDEN) NO_OBS), (final HIDDEN), sig, start, body, q, f, p1, p2, p3,
    (box_at (before_last HIDDEN) 4), (box_at (before_last HIDDEN) 9), (hd (mk_si [] 0 0 [] 0 []) (sx_inputs (tx_before HIDDEN))).
  split; [exact toy_ok|]. do 4 (split; [assumption|]).
  split; [apply attested_at; vm_compute; try reflexivity; try lia; discriminate|].
  split; [apply attested_at; vm_compute; try reflexivity; try lia; discriminate|]. rewrite S2.
  do 3 (split; [vm_compute; reflexivity|]). split; [vm_compute; discriminate|]. split; vm_compute; repeat constructor.
Qed.
