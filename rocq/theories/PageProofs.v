(** The pages of the signing screens against SpecPages. *)
From Coq Require Import String.
From Verif Require Import Lib Env SpecText SpecTree SpecTrace SpecTx SpecAmounts SpecPages Bip32 Base58 Format Address ErgoTree TxTable
  Amounts OutputInfo UiFlow P2pkOp App TextProofs Base58Proofs TreeProofs BoxProofs AmountProofs SignInv SignInput SignOutput SignBox SignTree SignRest SignShow TraceSign TraceScreen.

#[local] Arguments N.eqb : simpl never.
#[local] Arguments N.ltb : simpl never.
#[local] Arguments N.leb : simpl never.
#[local] Arguments N.sub : simpl never.
#[local] Arguments blen : simpl never.
#[local] Arguments num : simpl never.
#[local] Arguments slice : simpl never.

(** ** Bytes of the description *)

Definition out_bytes_ok (o : s_output) : Prop :=
  match so_dest o with
  | Some (SD_TREE t) => bytes_ok t = true
  | Some (SD_CHANGE p) => Forall (fun x => x < 2 ^ 32) p
  | _ => True
  end.
Definition in_bytes_ok (i : s_input) : Prop :=
  bytes_ok (si_id i) = true /\ Forall (Forall (fun t => bytes_ok (fst t) = true)) (si_frames i).
Record tx_bytes_ok (d : s_tx) : Prop := mk_tbo {
  tb_tokens : Forall (fun t => bytes_ok t = true) (sx_tokens d);
  tb_inputs : Forall in_bytes_ok (sx_inputs d);
  tb_outputs : Forall out_bytes_ok (sx_outputs d) }.

Lemma Forall_upd_last : forall A (P : A -> Prop) f l, Forall P l -> (forall x, P x -> P (f x)) -> Forall P (upd_last f l).
Proof.
  intros A P f l H K. destruct (snoc_cases _ l) as [->|(pre & x & ->)]; [constructor|].
  rewrite upd_last_snoc. apply Forall_app in H as [H1 H2]. inv H2. apply Forall_app. split; [assumption|].
  constructor; [auto|constructor].
Qed.
Lemma slice_ok : forall off n l, bytes_ok l = true -> bytes_ok (slice off n l) = true.
Proof. intros. apply bytes_ok_firstn, bytes_ok_skipn. assumption. Qed.
Lemma path_at_ok : forall off l, bytes_ok l = true -> Forall (fun x => x < 2 ^ 32) (path_at off l).
Proof.
  intros off l H. unfold path_at. apply Forall_forall. intros x Hx. apply in_map_iff in Hx as (i & <- & _).
  apply (num_bound (off + 1 + 4 * i) 4 l) in H. exact H.
Qed.
Lemma frame_tokens_ok : forall data, bytes_ok data = true -> Forall (fun t : bytes * N => bytes_ok (fst t) = true) (frame_tokens data).
Proof.
  intros data H. unfold frame_tokens. apply Forall_forall. intros x Hx. apply in_map_iff in Hx as (e & <- & He). cbn [fst].
  apply slice_ok. pose proof (entries_bytes_ok 40 _ (slice_ok 43 (40 * frame_ntokens data) data H)) as F.
  rewrite Forall_forall in F. apply F. exact He.
Qed.

Lemma upd_outs_ok : forall d f, tx_bytes_ok d -> (forall o, out_bytes_ok o -> out_bytes_ok (f o)) ->
  tx_bytes_ok (on_outputs (upd_last f) d).
Proof. intros d f [H1 H2 H3] K. constructor; cbn; try assumption. apply Forall_upd_last; assumption. Qed.
Lemma upd_ins_ok : forall d f, tx_bytes_ok d -> (forall o, in_bytes_ok o -> in_bytes_ok (f o)) ->
  tx_bytes_ok (on_inputs (upd_last f) d).
Proof. intros d f [H1 H2 H3] K. constructor; cbn; try assumption. apply Forall_upd_last; assumption. Qed.

Lemma describe_cmd_ok : forall d sub data, bytes_ok data = true -> tx_bytes_ok d -> tx_bytes_ok (describe_cmd d sub data).
Proof.
  intros d sub data Hb H. destruct sub as [|p]; [exact H|].
  do 5 (destruct p as [p|p|]; try exact H); cbn [describe_cmd];
    try (apply upd_outs_ok; [exact H|]; intros o Ho; unfold out_bytes_ok in *; cbn [so_dest set_dest add_so_tokens add_so_regs]; try exact Ho; try exact I; try (apply path_at_ok; exact Hb));
    try (apply upd_ins_ok; [exact H|]; intros i Hi; exact Hi).
  all: try (destruct H as [H1 H2 H3]; constructor; cbn; try assumption; apply Forall_app; split; try assumption; apply entries_bytes_ok; assumption).
  - destruct H as [H1 H2 H3]. constructor; cbn; try assumption. apply Forall_app. split; [assumption|]. constructor; [exact I|constructor].
  - destruct (so_dest o) as [[t| |p]|]; try exact I; try exact Ho; [|exact Hb]. rewrite bytes_ok_app, Ho, Hb. reflexivity.
  - destruct (num 33 1 data =? 0).
    + destruct H as [H1 H2 H3]. constructor; cbn; try assumption. apply Forall_app. split; [assumption|]. constructor; [|constructor].
      split; [apply slice_ok; exact Hb|]. constructor; [apply frame_tokens_ok; exact Hb|constructor].
    + apply upd_ins_ok; [exact H|]. intros i [Hi1 Hi2]. split; [exact Hi1|]. cbn. apply Forall_app. split; [exact Hi2|].
      constructor; [apply frame_tokens_ok; exact Hb|constructor].
Qed.
Lemma describe_ok : forall d o, event_ok (fst o) -> tx_bytes_ok d -> tx_bytes_ok (describe d o).
Proof.
  intros d o He H. unfold describe. destruct (continuation INS_SIGN o) as [[sub data]|] eqn:C.
  - assert (Hb : bytes_ok data = true).
    { destruct o as [[| | | | | | | |] outs]; try discriminate. cbn in C, He.
      match type of C with (if ?b then _ else _) = _ => destruct b; [|discriminate] end. injection C as <- <-. tauto. }
    pose proof (describe_cmd_ok d sub data Hb H) as K. destruct (shows_output (snd o)); [|exact K].
    apply upd_outs_ok; [exact K|]. intros x Hx. exact Hx.
  - destruct (is_approval o); [|exact H]. apply upd_outs_ok; [exact H|]. intros x Hx. exact Hx.
Qed.
Lemma description_ok : forall body, Forall (fun o => event_ok (fst o)) body -> tx_bytes_ok (description body).
Proof.
  intros body H. unfold description. assert (K : tx_bytes_ok s_empty) by (constructor; constructor).
  revert H K. generalize s_empty. induction body as [|o body IH]; intros d H K; [exact K|]. inv H. cbn [fold_left].
  apply IH; [assumption|]. apply describe_ok; assumption.
Qed.
Lemma history_events : forall E key tr st, history E key tr st -> Forall (fun o => event_ok (fst o)) tr.
Proof. intros E key tr st H. induction H; [constructor|]. apply Forall_app. split; [assumption|]. constructor; [assumption|constructor]. Qed.
Lemma session_in : forall ins tr start body, session_of ins tr = Some (start, body) -> exists a, tr = a ++ start :: body.
Proof.
  intros ins tr. induction tr as [|o tr IH] using rev_ind; intros start body H; [discriminate|].
  unfold session_of in H. rewrite fold_left_app in H. cbn [fold_left] in H. fold (session_of ins tr) in H.
  destruct (is_start ins o).
  - injection H as <- <-. exists tr. reflexivity.
  - destruct (session_of ins tr) as [[b l]|]; [|discriminate]. injection H as <- <-.
    destruct (IH b l eq_refl) as (a & ->). exists a. rewrite <- app_assoc. reflexivity.
Qed.
Lemma session_bytes_ok : forall E key tr st start body, history E key tr st ->
  session_of INS_SIGN tr = Some (start, body) -> tx_bytes_ok (description body) /\ event_ok (fst start).
Proof.
  intros E key tr st start body H S. apply history_events in H. apply session_in in S as (a & ->).
  apply Forall_app in H as [_ H]. inv H. split; [apply description_ok; assumption|assumption].
Qed.

(** ** Positions of the tokens *)

Fixpoint slots_of {A} (p : A -> bool) (i : nat) (l : list A) : list nat :=
  match l with [] => [] | x :: t => if p x then i :: slots_of p (S i) t else slots_of p (S i) t end.
Lemma slots_of_length : forall A (p : A -> bool) l i, length (slots_of p i l) = length (filter p l).
Proof. induction l as [|x l IH]; intro i; cbn; [reflexivity|]. destruct (p x); cbn; rewrite IH; reflexivity. Qed.
Lemma nth_index_slots_of : forall A (p : A -> bool) l i k,
  nth_index p (N.of_nat i) (N.of_nat k) l =
  match nth_error (slots_of p i l) k with Some j => N.of_nat j | None => INDEX_NOT_EXIST end.
Proof.
  intros A p. induction l as [|x l IH]; intros i k; cbn [nth_index slots_of].
  - destruct k; reflexivity.
  - replace (N.of_nat i + 1) with (N.of_nat (S i)) by lia. destruct (p x).
    + destruct k as [|k]; [reflexivity|]. cbn [nth_error]. replace (N.of_nat (S k) =? 0) with false by lia.
      replace (N.of_nat (S k) - 1) with (N.of_nat k) by lia. apply IH.
    + apply IH.
Qed.
Lemma slots_of_seq : forall A (p : A -> bool) (d : A) l i,
  slots_of p i l = filter (fun j => p (nth (j - i) l d)) (seq i (length l)).
Proof.
  intros A p d. induction l as [|x l IH]; intro i; [reflexivity|]. cbn [slots_of length seq filter].
  rewrite Nat.sub_diag. cbn [nth]. rewrite IH.
  assert (G : filter (fun j => p (nth (j - S i) l d)) (seq (S i) (length l)) =
              filter (fun j => p (nth (j - i) (x :: l) d)) (seq (S i) (length l))).
  { apply filter_ext_in. intros j Hj. apply in_seq in Hj. replace (j - i)%nat with (S (j - S i)) by lia. reflexivity. }
  rewrite G. reflexivity.
Qed.

Lemma distinct_snoc : forall l x, distinct_ids (l ++ [x]) = if existsb (bytes_eqb x) (distinct_ids l) then distinct_ids l else distinct_ids l ++ [x].
Proof. intros. unfold distinct_ids. rewrite fold_left_app. reflexivity. Qed.
Lemma existsb_in : forall (x : bytes) l, existsb (bytes_eqb x) l = true <-> In x l.
Proof.
  intros x l. rewrite existsb_exists. split.
  - intros (y & Hy & E). apply bytes_eqb_eq in E. subst. exact Hy.
  - intro H. exists x. split; [exact H|apply bytes_eqb_refl].
Qed.
Lemma distinct_in : forall l x, In x (distinct_ids l) <-> In x l.
Proof.
  intro l. induction l as [|y l IH] using rev_ind; intro x; [reflexivity|]. rewrite distinct_snoc, in_app_iff, <- IH.
  destruct (existsb (bytes_eqb y) (distinct_ids l)) eqn:E.
  - apply existsb_in in E. split; [tauto|]. intros [H|[->|[]]]; assumption.
  - rewrite in_app_iff. reflexivity.
Qed.
Lemma distinct_add : forall t x, distinct_ids (add_id t x) = distinct_ids (t ++ [x]).
Proof.
  intros t x. unfold add_id. destruct (existsb (bytes_eqb x) t) eqn:E; [|reflexivity]. rewrite distinct_snoc.
  apply existsb_in in E. apply distinct_in in E. apply existsb_in in E. rewrite E. reflexivity.
Qed.
Lemma distinct_app : forall a b c, distinct_ids a = distinct_ids b -> distinct_ids (a ++ c) = distinct_ids (b ++ c).
Proof. intros a b c H. unfold distinct_ids in *. rewrite !fold_left_app, H. reflexivity. Qed.
Lemma distinct_table : forall d, distinct_ids (table_of d) = token_ids d.
Proof.
  intro d. unfold table_of, token_ids. generalize (map fst (input_tokens d)) as l. generalize (sx_tokens d) as t.
  intros t l. revert t. induction l as [|x l IH]; intro t; cbn [fold_left]; [rewrite app_nil_r; reflexivity|].
  rewrite IH. rewrite (distinct_app _ _ l (distinct_add t x)). rewrite <- app_assoc. reflexivity.
Qed.
Lemma first_in : forall (t : list bytes) x, In x t -> first (t ++ [x]) (length t) = false.
Proof.
  intros t x H. unfold first. rewrite app_nth2, Nat.sub_diag by lia. cbn [nth]. rewrite find_app_in by exact H.
  unfold token_table_find_token_index. destruct (find_index_from_spec t 0 x) as [(k & Hk & _ & -> & _)|[K _]]; [|contradiction].
  replace (0 + N.of_nat k =? N.of_nat (length t)) with false by lia. apply andb_false_r.
Qed.
Lemma distinct_first : forall t, distinct_ids t = map (fun i => nth i t []) (filter (first t) (seq 0 (length t))).
Proof.
  intro t. induction t as [|x t IH] using rev_ind; [reflexivity|].
  rewrite distinct_snoc, app_length. cbn [length]. rewrite Nat.add_1_r, seq_S, filter_app, map_app.
  assert (G : filter (first (t ++ [x])) (seq 0 (length t)) = filter (first t) (seq 0 (length t))).
  { apply filter_ext_in. intros j Hj. apply in_seq in Hj. apply first_app_old. lia. }
  assert (G2 : map (fun i => nth i (t ++ [x]) []) (filter (first t) (seq 0 (length t))) =
               map (fun i => nth i t []) (filter (first t) (seq 0 (length t)))).
  { apply map_ext_in. intros j Hj. apply filter_In in Hj as [Hj _]. apply in_seq in Hj. apply app_nth1. lia. }
  rewrite G, G2, <- IH. cbn [plus filter].
  destruct (existsb (bytes_eqb x) (distinct_ids t)) eqn:E.
  - apply existsb_in in E. apply -> distinct_in in E. rewrite first_in by exact E. cbn [map]. rewrite app_nil_r. reflexivity.
  - rewrite first_app_new. + cbn [map]. rewrite app_nth2, Nat.sub_diag by lia. reflexivity.
    + intro K. apply distinct_in in K. apply existsb_in in K. congruence.
Qed.
Lemma filter_map : forall A B (p : B -> bool) (f : A -> B) l, filter p (map f l) = map f (filter (fun x => p (f x)) l).
Proof. induction l as [|x l IH]; [reflexivity|]. cbn. destruct (p (f x)); cbn; rewrite IH; reflexivity. Qed.
Lemma filter_filter : forall A (p q : A -> bool) l, filter p (filter q l) = filter (fun x => q x && p x) l.
Proof. induction l as [|x l IH]; [reflexivity|]. cbn. destruct (q x); cbn; [destruct (p x); cbn|]; rewrite IH; reflexivity. Qed.

(** The used slots, in order, are the ids of the tokens with a non-zero amount. *)
Lemma slots_ids : forall A (p : A -> bool) (zero : A) (slots : list A) (t : list bytes) (f : bytes -> A),
  length slots = 20%nat -> (length t <= 20)%nat -> p zero = false ->
  (forall i, (i < 20)%nat -> nth i slots zero = if first t i then f (nth i t []) else zero) ->
  map (fun i => nth i t []) (slots_of p 0 slots) = filter (fun id => p (f id)) (distinct_ids t).
Proof.
  intros A p zero slots t f L1 L2 Hz Hs. rewrite (slots_of_seq _ p zero), L1, distinct_first, filter_map, filter_filter. f_equal.
  replace 20%nat with (length t + (20 - length t))%nat by lia. rewrite seq_app, filter_app.
  match goal with |- _ ++ ?r = _ => replace r with (@nil nat) end.
  - rewrite app_nil_r. apply filter_ext_in. intros j Hj. apply in_seq in Hj. rewrite Nat.sub_0_r, Hs by lia.
    destruct (first t j); [reflexivity|exact Hz].
  - symmetry. match goal with |- filter ?g ?l = _ => assert (G : forall j, In j l -> g j = false) end.
    { intros j Hj. apply in_seq in Hj. rewrite Nat.sub_0_r, Hs by lia. rewrite first_out by lia. exact Hz. }
    revert G. generalize (seq (0 + length t) (20 - length t)) as l. induction l as [|x l IH]; intro G; [reflexivity|].
    cbn [filter]. rewrite (G x) by (left; reflexivity). apply IH. intros. apply G. right. assumption.
Qed.
Lemma slots_of_slot : forall A (p : A -> bool) (zero : A) (slots : list A) (t : list bytes) (f : bytes -> A) k i,
  length slots = 20%nat -> p zero = false ->
  (forall i, (i < 20)%nat -> nth i slots zero = if first t i then f (nth i t []) else zero) ->
  nth_error (slots_of p 0 slots) k = Some i -> (i < 20)%nat /\ (i < length t)%nat /\ nth i slots zero = f (nth i t []) /\ p (f (nth i t [])) = true.
Proof.
  intros A p zero slots t f k i L Hz Hs H. apply nth_error_In in H. rewrite (slots_of_seq _ p zero), L in H. apply filter_In in H as [H1 H2].
  apply in_seq in H1. rewrite Nat.sub_0_r in H2. pose proof (Hs i ltac:(lia)) as K. destruct (first t i) eqn:Ef; [|rewrite K, Hz in H2; discriminate].
  split; [lia|]. split; [|split; [exact K|rewrite <- K; exact H2]].
  unfold first in Ef. apply andb_true_iff in Ef as [Ef _]. apply Nat.ltb_lt in Ef. exact Ef.
Qed.

(** ** Texts *)

Lemma title_ok : forall k suffix, k < 99 -> (length (str suffix) <= 7)%nat -> numbered (k + 1) suffix (token_title k suffix).
Proof.
  intros k suffix Hk Hs. destruct (dec_spec (k + 1)) as [D L]; [apply N.lt_trans with 100; [lia|reflexivity]|].
  exists (dec (k + 1)). split; [exact D|]. unfold token_title, cstr, TITLE_LEN. apply firstn_all2.
  assert (H : (length (dec (k + 1)) <= 2)%nat).
  { destruct (Nat.leb_spec (length (dec (k + 1))) 2) as [H|H]; [exact H|].
    pose proof (is_decimal_lower _ _ D ltac:(lia)) as B.
    assert (10 ^ 2 <= 10 ^ N.of_nat (length (dec (k + 1)) - 1)) by (apply N.pow_le_mono_r; lia). lia. }
  rewrite !app_length. change (length (str "Token [")) with 7%nat. change (20 - 1)%nat with 19%nat. lia.
Qed.
Lemma path_page_ok : forall title p, (length (str title) <= 19)%nat -> (1 <= length p <= 10)%nat -> Forall (fun x => x < 2 ^ 32) p ->
  path_page title p (match bip32_path_format TEXT_LEN p with
                     | None => Fail SW_BIP32_FORMATTING_FAILED
                     | Some s => Ok (cstr TITLE_LEN (str title), s)
                     end).
Proof.
  intros title p Ht Hl Hp. destruct (path_format_complete TEXT_LEN p Hl Hp) as (full & T & F & G).
  exists full. split; [exact T|]. unfold cstr. rewrite (firstn_all2 (n := TITLE_LEN - 1)) by (change (TITLE_LEN - 1)%nat with 19%nat; lia).
  destruct (Nat.ltb_spec (length full) 70) as [K|K].
  - left. split; [exact K|]. rewrite F by exact K. reflexivity.
  - right. split; [exact K|]. destruct (bip32_path_format TEXT_LEN p) as [t|] eqn:E; [|right; reflexivity]. left.
    destruct (G t eq_refl) as [G1 [->|(G2 & G3 & _)]]; [unfold TEXT_LEN in G1; lia|].
    rewrite G3, G2. reflexivity.
Qed.
Lemma erg_page_ok : forall title v, (length (str title) <= 19)%nat -> v < two64 ->
  erg_page title v (match format_erg_amount v TEXT_LEN with
                    | None => Fail SW_BUFFER_ERROR
                    | Some s => Ok (cstr TITLE_LEN (str title), s)
                    end).
Proof.
  intros title v Ht Hv. destruct (erg_shown v Hv) as (t & E & T & _). rewrite E. exists t. split; [exact T|].
  unfold cstr. rewrite firstn_all2 by (change (TITLE_LEN - 1)%nat with 19%nat; lia). reflexivity.
Qed.
Lemma address_page_ok : forall E title network type content, env_ok E -> (length (str title) <= 19)%nat -> network <= 252 -> 1 <= type <= 3 ->
  bytes_ok content = true -> (length content <= 33)%nat ->
  exists a, address_of (e_blake E) type network content = Some a /\
  address_page E title network type content
    (match format_b58_id a TEXT_LEN with
     | None => Fail SW_ADDRESS_FORMATTING_FAILED
     | Some s => Ok (cstr TITLE_LEN (str title), s)
     end).
Proof.
  intros E title network type content Henv Ht Hn Hty Hc Hl. unfold address_of, network_id_is_valid.
  rewrite (proj2 (N.leb_le network 252) Hn). cbn [negb]. unfold u8. rewrite N.mod_small by (unfold two8; lia).
  assert (Hb : bytes_ok (type + network :: content) = true) by (apply bytes_ok_cons; split; [lia|exact Hc]).
  eexists. split; [reflexivity|].
  set (a := (type + network :: content) ++ firstn 4 (e_blake E (type + network :: content))).
  assert (Ha : a = address E network type content). { unfold a, address. rewrite (N.add_comm type network). reflexivity. }
  assert (Oa : bytes_ok a = true). { unfold a. rewrite bytes_ok_app, Hb. apply bytes_ok_firstn, ok_blake_bytes. exact Henv. }
  assert (La : (length a <= 38)%nat). { unfold a. rewrite app_length, firstn_length, ok_blake_len by exact Henv. cbn [length]. lia. }
  destruct (base58_exact a TEXT_LEN Oa) as (t & B & Ex); [unfold blen; lia|].
  destruct (base58_fits a TEXT_LEN Oa La) as (t' & Ft & Lt); [unfold TEXT_LEN; lia|].
  rewrite Ft in Ex. destruct (Nat.ltb TEXT_LEN (length t)); [discriminate|]. injection Ex as ->.
  assert (Hne : t <> []).
  { intros ->. destruct B as (z & body & ds & E1 & E2 & E3 & E4 & E5 & E6).
    destruct z; [|discriminate]. destruct ds; [|discriminate]. cbn in E1. unfold b58_value in E6. cbn in E6.
    destruct body as [|x body]; [unfold a in E1; discriminate|]. rewrite be_value_cons in E6. cbn in E2.
    pose proof (N.pow_nonzero 256 (blen body) ltac:(lia)). nia. }
  unfold format_b58_id. rewrite Ft. exists t. rewrite <- Ha. split; [exact B|].
  unfold cstr. rewrite firstn_all2 by (change (TITLE_LEN - 1)%nat with 19%nat; lia).
  destruct t; [contradiction|reflexivity].
Qed.

Lemma token_pages_seq : forall E value (pg : N -> page) b ids k,
  (forall j id, nth_error ids j = Some id -> exists t1 t2,
     numbered (N.of_nat (k + j) + 1) "]" t1 /\ numbered (N.of_nat (k + j) + 1) "] Value" t2 /\
     pg (N.of_nat (b + 2 * (k + j))) = Ok (t1, id_text E id) /\ value id t2 (pg (N.of_nat (b + 2 * (k + j) + 1)))) ->
  token_pages E value (N.of_nat k + 1) ids (map (fun i => pg (N.of_nat i)) (seq (b + 2 * k) (2 * length ids))).
Proof.
  intros E value pg b. induction ids as [|id ids IH]; intros k H; [constructor|].
  destruct (H 0%nat id eq_refl) as (t1 & t2 & N1 & N2 & P1 & P2). rewrite Nat.add_0_r in *.
  replace (2 * length (id :: ids))%nat with (S (S (2 * length ids))) by (cbn [length]; lia). cbn [seq map]. rewrite P1.
  replace (S (b + 2 * k)) with (b + 2 * k + 1)%nat by lia. replace (S (b + 2 * k + 1)) with (b + 2 * (S k))%nat by lia.
  econstructor; [exact N1|exact N2|exact P2|].
  replace (N.of_nat k + 1 + 1) with (N.of_nat (S k) + 1) by lia. apply IH. intros j x Hx.
  replace (S k + j)%nat with (k + S j)%nat by lia. apply H. exact Hx.
Qed.

(** ** The ids in the table *)

Lemma in_add_ids : forall l t (x : bytes), In x (fold_left add_id l t) -> In x t \/ In x l.
Proof.
  induction l as [|y l IH]; intros t x H; [left; exact H|]. cbn [fold_left] in H. apply IH in H as [H|H]; [|right; right; exact H].
  unfold add_id in H. destruct (existsb (bytes_eqb y) t); [left; exact H|]. apply in_app_or in H as [H|[->|[]]]; [left; exact H|right; left; reflexivity].
Qed.
Lemma table_ids : forall E d h, wf E d h -> tx_bytes_ok d -> forall x, In x (table_of d) -> length x = 32%nat /\ bytes_ok x = true.
Proof.
  intros E d h W B x H. unfold table_of in H. apply in_add_ids in H as [H|H].
  - pose proof (w_tok_ids _ _ _ W) as F1. pose proof (tb_tokens _ B) as F2. rewrite Forall_forall in F1, F2. auto.
  - apply in_map_iff in H as ([y v] & <- & H). unfold input_tokens in H.
    apply in_concat in H as (fr & H1 & H2). apply in_map_iff in H1 as (i & <- & H1).
    pose proof (w_in_wf _ _ _ W) as F1. pose proof (tb_inputs _ B) as F2. rewrite Forall_forall in F1, F2.
    specialize (F1 i H1). specialize (F2 i H1). apply in_concat in H2 as (l & H2 & H3).
    pose proof (iw_tokens _ F1) as G1. destruct F2 as [_ G2]. rewrite Forall_forall in G1, G2. specialize (G1 l H2). specialize (G2 l H2).
    rewrite Forall_forall in G1, G2. specialize (G1 _ H3). specialize (G2 _ H3). destruct G1. auto.
Qed.

Lemma table_cell_ok : forall (t : list bytes) i, (i < 20)%nat -> (i < length t)%nat -> table_cell t (N.of_nat i) = Some (nth i t []).
Proof.
  intros t i H1 H2. unfold table_cell, TOKEN_MAX_COUNT. rewrite (proj2 (N.ltb_lt _ _)) by lia. rewrite Nat2N.id.
  f_equal. apply nth_indep. exact H2.
Qed.

(** The page of the [k]-th token. *)
Lemma id_page_ok : forall E (id : bytes) k, env_ok E -> length id = 32%nat -> bytes_ok id = true ->
  (match format_hex_id (e_id_keep E) id TEXT_LEN with
   | None => Fail SW_ADDRESS_FORMATTING_FAILED
   | Some x => Ok (token_title k "]", x)
   end) = Ok (token_title k "]", id_text E id).
Proof.
  intros E id k Henv L O. destruct (id_shown (e_id_keep E) id (ok_id_keep E Henv) L O) as (t & -> & _ & ->). reflexivity.
Qed.

Lemma amount_once : forall l id, once l -> Forall (fun t => snd t < two64) l -> amount_of id l < two64.
Proof.
  induction l as [|[x v] l IH]; intros id H F; [reflexivity|]. inv F. cbn [snd] in *. rewrite amount_of_cons.
  assert (Ho : once l). { intros a y b -> Hy. apply (H ((x, v) :: a) y b eq_refl Hy). }
  specialize (IH id Ho H3). destruct (bytes_eqb x id) eqn:E; [|lia]. apply bytes_eqb_eq in E. subst x.
  destruct (N.eq_dec v 0) as [->|Hv]; [lia|].
  assert (Z : amount_of id l = 0).
  { specialize (H [] (id, v) l eq_refl Hv). cbn [fst] in H. clear -H. unfold amount_of.
    induction l as [|[y w] l IH]; [reflexivity|]. cbn. destruct (bytes_eqb y id) eqn:E.
    - apply bytes_eqb_eq in E. subst. exfalso. apply H. left. reflexivity.
    - apply IH. intro K. apply H. right. exact K. }
  lia.
Qed.

(** ** The pages of an output *)

Lemma display_split : forall k, (N.of_nat (2 + 2 * k) - 2) / 2 = N.of_nat k /\ (N.of_nat (2 + 2 * k) - 2) mod 2 = 0 /\
  (N.of_nat (2 + 2 * k + 1) - 2) / 2 = N.of_nat k /\ (N.of_nat (2 + 2 * k + 1) - 2) mod 2 = 1.
Proof.
  intro k. replace (N.of_nat (2 + 2 * k) - 2) with (N.of_nat k * 2) by lia.
  replace (N.of_nat (2 + 2 * k + 1) - 2) with (1 + N.of_nat k * 2) by lia.
  rewrite N.div_mul, N.mod_mul, N.div_add, N.mod_add by lia. change (1 / 2) with 0. change (1 mod 2) with 1. auto.
Qed.

Lemma slots_le : forall A (p : A -> bool) l, length l = 20%nat -> (length (slots_of p 0 l) <= 20)%nat.
Proof. intros A p l H. rewrite slots_of_length, <- H. clear H. induction l as [|x l IH]; cbn; [lia|]. destruct (p x); cbn; lia. Qed.

Lemma page_addr : forall E network o i d, env_ok E -> network <= 252 -> oinfo_rel E d o i -> output_complete o = true -> out_bytes_ok o ->
  (forall p, so_dest o = Some (SD_CHANGE p) -> ergo_path_validate p V_ADDRESS_GE5 = true /\ (length p <= 10)%nat) ->
  exists dest, so_dest o = Some dest /\ destination_page E network dest (output_info_print_address E i network).
Proof.
  intros E network o i d Henv Hn R Hc Hb Hp.
  assert (Htc : tree_complete o = true). { unfold output_complete in Hc. destruct (tree_complete o); [reflexivity|discriminate]. }
  assert (Hf : output_info_is_finished i = true).
  { unfold output_info_is_finished. rewrite (ri_tree_set _ _ _ _ R), (ri_finished _ _ _ _ R), Htc, Hc. reflexivity. }
  unfold output_info_print_address. rewrite Hf, (ri_type _ _ _ _ R). cbn [negb]. unfold out_type_of, out_bytes_ok in *.
  destruct (so_dest o) as [[t| |p]|] eqn:Ed; [exists (SD_TREE t)|exists SD_FEE|exists (SD_CHANGE p)|].
  - split; [reflexivity|]. unfold tree_type, script_type. rewrite Htc, Hc.
    assert (Hscript : (forall pk, ~ is_p2pk_tree pk t) -> (forall h, ~ is_p2sh_tree h t) ->
      destination_page E network (SD_TREE t)
        (match ergo_address_from_script_hash (e_blake E) network (firstn 24 (e_blake E t)) with
         | None => Fail SW_ADDRESS_GENERATION_FAILED
         | Some a => match format_b58_id a TEXT_LEN with
                     | None => Fail SW_ADDRESS_FORMATTING_FAILED
                     | Some s => Ok (cstr TITLE_LEN (str "Script Hash"), s)
                     end
         end)).
    { intros N1 N2. right. right. do 2 (split; [assumption|]).
      destruct (address_page_ok E "Script Hash" network 2 (firstn 24 (e_blake E t)) Henv) as (a & Ea & Pa); [cbn; lia|exact Hn|lia| | |].
      - apply bytes_ok_firstn, ok_blake_bytes. exact Henv.
      - rewrite firstn_length. lia.
      - unfold ergo_address_from_script_hash. rewrite firstn_firstn. change (Nat.min 24 24) with 24%nat. rewrite Ea. exact Pa. }
    assert (Ho : forall p : option bytes, Some t = p -> True) by auto.
    unfold classify_first_chunk. rewrite !andb_true_r.
    destruct (Nat.eqb (length t) ERGO_TREE_P2PK_LEN) eqn:E1.
    + apply Nat.eqb_eq in E1. destruct (ergo_tree_parse_p2pk t) as [pk|] eqn:P.
      * cbn [oi_type oi_set_type oi_set_tree_set]. apply parse_p2pk_spec in P; [|exact E1]. left. exists pk. split; [exact P|].
        destruct P as (Ht & Lk & _). subst t. rewrite bytes_ok_app in Hb. apply andb_true_iff in Hb as [_ Hb].
        destruct (address_page_ok E "Address" network 1 pk Henv) as (a & Ea & Pa); [cbn; lia|exact Hn|lia|exact Hb|lia|].
        unfold ergo_address_from_compressed_pubkey. rewrite Ea. exact Pa.
      * replace (Nat.eqb (length t) ERGO_TREE_P2SH_LEN) with false by (rewrite E1; reflexivity). cbn [oi_type oi_set_type oi_set_tree_set output_info_init].
        apply Hscript.
        -- intros pk H. apply parse_p2pk_spec in H; [congruence|exact E1].
        -- intros h H. apply p2sh_tree_length in H. rewrite E1 in H. discriminate.
    + destruct (Nat.eqb (length t) ERGO_TREE_P2SH_LEN) eqn:E2.
      * apply Nat.eqb_eq in E2. destruct (ergo_tree_parse_p2sh t) as [h|] eqn:P.
        -- cbn [oi_type oi_set_type oi_set_tree_set]. apply parse_p2sh_spec in P; [|exact E2]. right. left. exists h. split; [exact P|].
           destruct P as (Ht & Lk). subst t. rewrite !bytes_ok_app in Hb. apply andb_true_iff in Hb as [_ Hb]. apply andb_true_iff in Hb as [Hb _].
           destruct (address_page_ok E "Script Hash" network 2 h Henv) as (a & Ea & Pa); [cbn; lia|exact Hn|lia|exact Hb|lia|].
           unfold ergo_address_from_script_hash. rewrite firstn_all2 by lia. rewrite Ea. exact Pa.
        -- cbn [oi_type oi_set_type oi_set_tree_set output_info_init]. apply Hscript.
           ++ intros pk H. apply p2pk_tree_length in H. rewrite H in E1. discriminate.
           ++ intros h H. apply parse_p2sh_spec in H; [congruence|exact E2].
      * cbn [oi_type oi_set_type oi_set_tree_set output_info_init]. apply Hscript.
        -- intros pk H. apply p2pk_tree_length in H. rewrite H in E1. discriminate.
        -- intros h H. apply p2sh_tree_length in H. rewrite H in E2. discriminate.
  - split; reflexivity.
  - split; [reflexivity|]. apply path_page_ok; [cbn; lia| |exact Hb].
    destruct (Hp p eq_refl) as [Hv Hl]. apply validate_address_ge5 in Hv as (a & c & j & r & -> & Hr). cbn [length] in *. lia.
  - unfold tree_complete in Htc. rewrite Ed in Htc. discriminate.
Qed.

Lemma nth_error_map_some : forall A B (f : A -> B) l k y, nth_error (map f l) k = Some y -> exists x, nth_error l k = Some x /\ y = f x.
Proof. intros A B f. induction l as [|a l IH]; intros [|k] y H; try discriminate; cbn in *; [inv H; eauto|apply IH; exact H]. Qed.

Lemma output_token_pages : forall E network d h o x a, env_ok E -> wf E d h -> tx_bytes_ok d -> In o (sx_outputs d) -> oinfo_rel E d o x ->
  amounts_rel d a ->
  token_pages E (output_token d o) 1 (tokens_held d o)
    (map (fun i => display_output_page E x (am_table a) network (N.of_nat i)) (seq 2 (2 * length (tokens_held d o)))).
Proof.
  intros E network d h o x a Henv W B Ho R A.
  pose proof (ri_tokens _ _ _ _ R) as [O1 O2 O3]. pose proof (table_len _ _ A) as Tl.
  set (f := fun id => amount_of id (tokens_of d o)) in *. set (p := fun v => 0 <? v).
  assert (Hp : forall id, p (f id) = negb (f id =? 0)).
  { intro id. unfold p. destruct (N.eqb_spec (f id) 0) as [->|K]; [reflexivity|]. cbn [negb]. apply N.ltb_lt. lia. }
  assert (Ids : map (fun i => nth i (table_of d) []) (slots_of p 0 (oi_tokens x)) = tokens_held d o).
  { rewrite (slots_ids N p 0 (oi_tokens x) (table_of d) f) by (auto; reflexivity).
    rewrite distinct_table. unfold tokens_held. apply filter_ext. exact Hp. }
  apply (token_pages_seq E (output_token d o) (display_output_page E x (am_table a) network) 2 (tokens_held d o) 0).
  intros j id Hj. change (0 + j)%nat with j. rewrite <- Ids in Hj. apply nth_error_map_some in Hj as (i & Hi & ->).
  destruct (slots_of_slot N p 0 (oi_tokens x) (table_of d) f j i O1 eq_refl O2 Hi) as (S1 & S2 & S3 & S4).
  assert (Hj20 : (j < 20)%nat). { pose proof (slots_le _ p (oi_tokens x) O1). assert (j < length (slots_of p 0 (oi_tokens x)))%nat by (apply nth_error_Some; congruence). lia. }
  destruct (display_split j) as (D1 & D2 & D3 & D4).
  assert (Ix : output_info_used_token_index x (N.of_nat j) = N.of_nat i).
  { unfold output_info_used_token_index. fold p. change 0 with (N.of_nat 0). rewrite nth_index_slots_of, Hi. reflexivity. }
  assert (In' : In (nth i (table_of d) []) (table_of d)) by (apply nth_In; exact S2).
  destruct (table_ids E d h W B _ In') as [I1 I2].
  exists (token_title (N.of_nat j) "]"), (token_title (N.of_nat j) "] Value").
  split; [apply title_ok; [lia|cbn; lia]|]. split; [apply title_ok; [lia|cbn; lia]|].
  unfold display_output_page.
  replace (N.of_nat (2 + 2 * j) =? 0) with false by lia. replace (N.of_nat (2 + 2 * j) =? 1) with false by lia.
  replace (N.of_nat (2 + 2 * j + 1) =? 0) with false by lia. replace (N.of_nat (2 + 2 * j + 1) =? 1) with false by lia.
  cbv zeta. rewrite D1, D2, D3, D4, Ix.
  replace (N.of_nat i =? INDEX_NOT_EXIST) with false by (unfold INDEX_NOT_EXIST; lia).
  change (0 =? 0) with true. change (1 =? 0) with false. cbv iota.
  rewrite (ra_table _ _ A), table_cell_ok by assumption. rewrite id_page_ok by assumption. split; [reflexivity|].
  rewrite Nat2N.id. rewrite (nth_error_nth' (oi_tokens x) 0) by lia. rewrite S3.
  assert (Hb : f (nth i (table_of d) []) < two64).
  { unfold f. pose proof (w_once _ _ _ W) as F1. pose proof (w_out_wf _ _ _ W) as F2. rewrite Forall_forall in F1, F2.
    apply amount_once; [apply F1; exact Ho|]. specialize (F2 o Ho). pose proof (ow_tokens _ _ _ F2) as F3.
    unfold tokens_of. apply Forall_forall. intros y Hy. apply in_map_iff in Hy as (z & <- & Hz). cbn [snd].
    rewrite Forall_forall in F3. apply F3. exact Hz. }
  destruct (format_u64_spec _ TEXT_LEN Hb) as (t & Et & Dt & _); [unfold TEXT_LEN; lia|]. rewrite Et. exists t. split; [exact Dt|reflexivity].
Qed.

Lemma pages_cons : forall (f : N -> page) n, map (fun i => f (N.of_nat i)) (seq 0 (S (S n))) = f 0 :: f 1 :: map (fun i => f (N.of_nat i)) (seq 2 n).
Proof. reflexivity. Qed.

Lemma output_pages_ok : forall E s d h g pre o, env_ok E -> ss_network s <= 252 -> wf E d h -> tx_bytes_ok d -> op_tx E s d h (sg_op g) ->
  sx_outputs d = pre ++ [o] -> output_complete o = true ->
  output_pages E (ss_network s) d o (pages_of E U_STX_OUTPUT (X_SIGN g) (page_count U_STX_OUTPUT (sg_op g))).
Proof.
  intros E s d h g pre o Henv Hn W B T Ho Hc. destruct T as ((_ & _ & Hnet) & _ & _ & A & oi & Hinf & Hu).
  apply last_info_cur with (pre := pre) (o := o) in Hinf as (x & -> & R); [|assumption].
  assert (Hin : In o (sx_outputs d)) by (rewrite Ho; apply in_or_app; right; left; reflexivity).
  pose proof (tb_outputs _ B) as Bo. rewrite Forall_forall in Bo. specialize (Bo o Hin).
  pose proof (w_out_wf _ _ _ W) as Wo. rewrite Forall_forall in Wo. specialize (Wo o Hin).
  destruct (page_addr E (ss_network s) o x d Henv Hn R Hc Bo) as (dest & Hd & P).
  { intros p Hp. destruct (ow_change _ _ _ Wo p Hp) as (C1 & C2 & _). auto. }
  assert (Hpg : forall n, pages_of E U_STX_OUTPUT (X_SIGN g) n = map (fun i => display_output_page E x (am_table (op_amounts (sg_op g))) (ss_network s) (N.of_nat i)) (seq 0 (N.to_nat n))).
  { intro n. unfold pages_of. apply map_ext. intro i. unfold page_of. rewrite Hu, Hnet. reflexivity. }
  rewrite Hpg. unfold page_count. rewrite Hu. cbn [tx_output].
  assert (P0 : display_output_page E x (am_table (op_amounts (sg_op g))) (ss_network s) 0 = output_info_print_address E x (ss_network s)) by reflexivity.
  assert (Hrest : (forall p, dest <> SD_CHANGE p) ->
    output_pages E (ss_network s) d o
      (map (fun i => display_output_page E x (am_table (op_amounts (sg_op g))) (ss_network s) (N.of_nat i))
           (seq 0 (N.to_nat (u8 (2 + 2 * output_info_used_tokens_count x)))))).
  { intro Hnc.
    assert (Hl : output_info_used_tokens_count x = N.of_nat (length (tokens_held d o))).
    { pose proof (ri_tokens _ _ _ _ R) as [O1 O2 O3]. unfold output_info_used_tokens_count, blen. rewrite <- (slots_of_length _ _ _ 0).
      rewrite <- (map_length (fun i => nth i (table_of d) [])).
      rewrite (slots_ids N _ 0 (oi_tokens x) (table_of d) (fun id => amount_of id (tokens_of d o))) by (auto; try reflexivity; apply (table_len _ _ A)).
      rewrite distinct_table. unfold tokens_held. do 2 f_equal. apply filter_ext. intro id.
      destruct (N.eqb_spec (amount_of id (tokens_of d o)) 0) as [->|K]; [reflexivity|]. cbn [negb]. apply N.ltb_lt. lia. }
    assert (Hle : output_info_used_tokens_count x <= 20).
    { unfold output_info_used_tokens_count, blen. rewrite <- (slots_of_length _ _ _ 0). pose proof (ri_tokens _ _ _ _ R) as [O1 _ _].
      pose proof (slots_le _ (fun v => 0 <? v) (oi_tokens x) O1). lia. }
    unfold u8. rewrite N.mod_small by (unfold two8; lia). rewrite Hl.
    replace (N.to_nat (2 + 2 * N.of_nat (length (tokens_held d o)))) with (S (S (2 * length (tokens_held d o)))) by lia.
    rewrite pages_cons, P0.
    exists dest, (output_info_print_address E x (ss_network s)). eexists. split; [exact Hd|]. split; [reflexivity|]. split; [exact P|].
    assert (Q : erg_page "Output Value" (so_value o) (display_output_page E x (am_table (op_amounts (sg_op g))) (ss_network s) 1)).
    { unfold display_output_page. change (1 =? 0) with false. change (1 =? 1) with true. cbv iota. rewrite (ri_value _ _ _ _ R).
      apply erg_page_ok; [cbn; lia|]. apply (gw_value _ (ow_g _ _ _ Wo)). }
    pose proof (output_token_pages E (ss_network s) d h o x _ Henv W B Hin R A) as K.
    destruct dest as [t| |p]; [| |exfalso; eapply Hnc; reflexivity]; (eexists; eexists; split; [reflexivity|]; split; [exact Q|exact K]). }
  rewrite (ri_type _ _ _ _ R). unfold out_type_of. rewrite Hd. destruct dest as [t| |p].
  - pose proof (tree_type_cases E o t) as Tt. destruct (tree_type E o t); try contradiction; apply Hrest; discriminate.
  - apply Hrest. discriminate.
  - exists (SD_CHANGE p). eexists. exists []. split; [exact Hd|]. split; [reflexivity|]. split; [exact P|reflexivity].
Qed.

(** ** The pages of the final confirmation *)

Lemma display_split3 : forall k, (N.of_nat (3 + 2 * k) - 1 - 2) / 2 = N.of_nat k /\ (N.of_nat (3 + 2 * k) - 1 - 2) mod 2 = 0 /\
  (N.of_nat (3 + 2 * k + 1) - 1 - 2) / 2 = N.of_nat k /\ (N.of_nat (3 + 2 * k + 1) - 1 - 2) mod 2 = 1.
Proof.
  intro k. destruct (display_split k) as (A & B & C & D).
  replace (N.of_nat (3 + 2 * k) - 1 - 2) with (N.of_nat (2 + 2 * k) - 2) by lia.
  replace (N.of_nat (3 + 2 * k + 1) - 1 - 2) with (N.of_nat (2 + 2 * k + 1) - 2) by lia. auto.
Qed.

Lemma confirm_pages_ok : forall E d h op a, env_ok E -> wf E d h -> tx_bytes_ok d -> amounts_rel d a -> op_amounts op = a ->
  ergo_path_validate (op_path op) V_ADDRESS_GE5 = true -> (length (op_path op) <= 10)%nat -> Forall (fun x => x < 2 ^ 32) (op_path op) ->
  confirm_pages E (op_path op) d (map (fun i => display_tx_page E op (N.of_nat i)) (seq 0 (N.to_nat (page_count U_STX_TX op)))).
Proof.
  intros E d h op a Henv W B A Ha Hv Hlp Hp32. pose proof (ra_tokens _ _ A) as [O1 Ot O2 O3 O4]. pose proof (table_len _ _ A) as Tl.
  rewrite (ra_table _ _ A) in *. set (f := balance d) in *. set (p := fun z => negb (z =? 0)%Z).
  assert (Ids : map (fun i => nth i (table_of d) []) (slots_of p 0 (am_tokens a)) = unbalanced d).
  { rewrite (slots_ids Z p 0%Z (am_tokens a) (table_of d) f) by (auto; reflexivity). rewrite distinct_table. reflexivity. }
  assert (Hl : amounts_non_zero_tokens_count a = N.of_nat (length (unbalanced d))).
  { unfold amounts_non_zero_tokens_count, blen. fold p. rewrite <- (slots_of_length _ _ _ 0), <- Ids, map_length. reflexivity. }
  assert (Hle : (length (unbalanced d) <= 20)%nat). { rewrite <- Ids, map_length. apply slots_le. exact O1. }
  unfold page_count. rewrite Ha, Hl. unfold u8. rewrite N.mod_small by (unfold two8; lia).
  replace (N.to_nat (3 + 2 * N.of_nat (length (unbalanced d)))) with (S (S (S (2 * length (unbalanced d))))) by lia.
  cbn [seq map]. do 4 eexists. split; [reflexivity|]. change (N.of_nat 0) with 0. change (N.of_nat 1) with 1. change (N.of_nat 2) with 2.
  split.
  { unfold display_tx_page. change (0 <? 1) with true. cbv iota. unfold p2pk_show_tx_screen. change (negb (0 =? 0)) with false. cbv iota.
    apply path_page_ok; [cbn; lia| |exact Hp32]. apply validate_address_ge5 in Hv as (x & c & j & r & Hr & _). rewrite Hr in *. cbn [length] in *. lia. }
  pose proof (ra_value _ _ A) as Rv. pose proof (ra_max _ _ A) as Rm. pose proof (ra_fee _ _ A) as Rf.
  split.
  { unfold display_tx_page. change (1 <? 1) with false. cbv iota zeta. change (1 - 1 =? 0) with true. cbv iota. rewrite Ha.
    replace (am_value a) with (total_in d - fees d - change d) by lia. apply erg_page_ok; [cbn; lia|lia]. }
  split.
  { unfold display_tx_page. change (2 <? 1) with false. cbv iota zeta. change (2 - 1 =? 0) with false. change (2 - 1 =? 1) with true. cbv iota. rewrite Ha, Rf.
    apply erg_page_ok; [cbn; lia|lia]. }
  apply (token_pages_seq E (imbalance d) (display_tx_page E op) 3 (unbalanced d) 0).
  intros j id Hj. change (0 + j)%nat with j. rewrite <- Ids in Hj. apply nth_error_map_some in Hj as (i & Hi & ->).
  destruct (slots_of_slot Z p 0%Z (am_tokens a) (table_of d) f j i O1 eq_refl O2 Hi) as (S1 & S2 & S3 & S4).
  assert (Hj20 : (j < 20)%nat). { pose proof (slots_le _ p (am_tokens a) O1). assert (j < length (slots_of p 0 (am_tokens a)))%nat by (apply nth_error_Some; congruence). lia. }
  destruct (display_split3 j) as (D1 & D2 & D3 & D4).
  assert (Ix : amounts_non_zero_token_index a (N.of_nat j) = N.of_nat i).
  { unfold amounts_non_zero_token_index. fold p. change 0 with (N.of_nat 0). rewrite nth_index_slots_of, Hi. reflexivity. }
  assert (In' : In (nth i (table_of d) []) (table_of d)) by (apply nth_In; exact S2).
  destruct (table_ids E d h W B _ In') as [I1 I2].
  exists (token_title (N.of_nat j) "]"), (token_title (N.of_nat j) "] Value").
  split; [apply title_ok; [lia|cbn; lia]|]. split; [apply title_ok; [lia|cbn; lia]|].
  unfold display_tx_page. rewrite Ha.
  replace (N.of_nat (3 + 2 * j) <? 1) with false by lia. replace (N.of_nat (3 + 2 * j + 1) <? 1) with false by lia. cbv zeta.
  replace (N.of_nat (3 + 2 * j) - 1 =? 0) with false by lia. replace (N.of_nat (3 + 2 * j) - 1 =? 1) with false by lia.
  replace (N.of_nat (3 + 2 * j + 1) - 1 =? 0) with false by lia. replace (N.of_nat (3 + 2 * j + 1) - 1 =? 1) with false by lia.
  rewrite D1, D2, D3, D4, Ix.
  replace (N.of_nat i =? INDEX_NOT_EXIST) with false by (unfold INDEX_NOT_EXIST; lia).
  change (0 =? 0) with true. change (1 =? 0) with false. cbv iota.
  rewrite (ra_table _ _ A), table_cell_ok by assumption. rewrite id_page_ok by assumption. split; [reflexivity|].
  rewrite tok_get_nth by lia. rewrite Nat2N.id, S3. unfold imbalance. fold f. set (v := f (nth i (table_of d) [])) in *.
  change (- Z.of_N two63)%Z with (- 2 ^ 63)%Z.
  pose proof (O4 (nth i (table_of d) [])) as Rg. fold v in Rg. unfold i64_ok in Rg.
  apply andb_true_iff in Rg as [Rg1 Rg2]. apply Z.leb_le in Rg1, Rg2.
  unfold p in S4. apply negb_true_iff, Z.eqb_neq in S4.
  assert (Hb : Z.abs_N v < two64 ) by (change two64 with (2 ^ 64); lia).
  destruct (Z.ltb_spec v 0) as [Hneg|Hpos].
  - destruct (Z.eqb_spec v (- 2 ^ 63)) as [Hm|Hm]; [reflexivity|].
    replace (Z.to_N (- v)) with (Z.abs_N v) by lia.
    destruct (format_u64_spec _ (TEXT_LEN - length (str "Minting: ")) Hb) as (t & Et & Dt & _); [cbn; lia|]. rewrite Et.
    exists t. split; [exact Dt|reflexivity].
  - replace (v =? - 2 ^ 63)%Z with false by lia. replace (Z.to_N v) with (Z.abs_N v) by lia.
    destruct (format_u64_spec _ (TEXT_LEN - length (str "Burning: ")) Hb) as (t & Et & Dt & _); [cbn; lia|]. rewrite Et.
    exists t. split; [exact Dt|reflexivity].
Qed.
