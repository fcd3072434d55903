(** Running totals of the signing operation against sums. *)
From Verif Require Import Lib SafeInt CodecProofs TxTable TxBox Amounts OutputInfo SpecTx SpecAmounts.

#[local] Arguments N.eqb : simpl never.
#[local] Arguments N.ltb : simpl never.
#[local] Arguments N.leb : simpl never.
#[local] Arguments N.sub : simpl never.
#[local] Arguments blen : simpl never.


(** ** Sums *)

Lemma total_app : forall a b, total (a ++ b) = total a + total b.
Proof. unfold total. induction a as [|x a IH]; intro b; cbn; [reflexivity|]. rewrite IH. lia. Qed.
Lemma amount_of_app : forall id a b, amount_of id (a ++ b) = amount_of id a + amount_of id b.
Proof. intros. unfold amount_of. rewrite filter_app, map_app, total_app. reflexivity. Qed.
Lemma amount_of_cons : forall id i v l,
  amount_of id ((i, v) :: l) = (if bytes_eqb i id then v else 0) + amount_of id l.
Proof. intros. unfold amount_of. cbn. destruct (bytes_eqb i id); reflexivity. Qed.
Lemma amount_of_nil : forall id, amount_of id [] = 0.
Proof. reflexivity. Qed.

(** ** The token table *)

Lemma find_index_from_spec : forall (t : list bytes) i (id : bytes),
  (exists k, (k < length t)%nat /\ nth k t [] = id /\ find_index_from i t id = i + N.of_nat k /\
             (forall j, (j < k)%nat -> nth j t [] <> id)) \/
  (~ In id t /\ find_index_from i t id = INDEX_NOT_EXIST).
Proof.
  induction t as [|x t IH]; intros i id; cbn [find_index_from].
  - right. split; [intros []|reflexivity].
  - destruct (bytes_eqb x id) eqn:E.
    + apply bytes_eqb_eq in E. subst. left. exists 0%nat. cbn. repeat split; try lia.
    + apply bytes_eqb_neq in E. destruct (IH (i + 1) id) as [(k & Hk & Hn & Hf & Hj)|[Hn Hf]].
      * left. exists (S k). cbn [length nth]. repeat split; try lia; try assumption.
        intros [|j] Hlt; [assumption|]. apply Hj. lia.
      * right. split; [|assumption]. intros [->|H]; [apply E; reflexivity|contradiction].
Qed.

(** [first t i]: position [i] is the first one holding its id. *)
Definition first (t : list bytes) (i : nat) : bool :=
  (i <? length t)%nat && (token_table_find_token_index t (nth i t []) =? N.of_nat i).

Lemma find_spec : forall (t : list bytes) (id : bytes), (length t <= 20)%nat ->
  let i := token_table_find_token_index t id in
  (i <> INDEX_NOT_EXIST /\ (N.to_nat i < length t)%nat /\ nth (N.to_nat i) t [] = id /\ first t (N.to_nat i) = true /\
   In id t) \/
  (i = INDEX_NOT_EXIST /\ ~ In id t).
Proof.
  intros t id Hl i. unfold i, token_table_find_token_index in *.
  destruct (find_index_from_spec t 0 id) as [(k & Hk & Hn & Hf & Hj)|[Hn Hf]].
  - left. rewrite Hf. rewrite N.add_0_l, Nat2N.id.
    split; [unfold INDEX_NOT_EXIST; lia|]. split; [assumption|]. split; [assumption|]. split.
    + unfold first, token_table_find_token_index. rewrite Hn, Hf. apply andb_true_iff. split; [apply Nat.ltb_lt; lia|].
      apply N.eqb_eq. lia.
    + rewrite <- Hn. apply nth_In. assumption.
  - right. auto.
Qed.

Lemma first_unique : forall (t : list bytes) i j, first t i = true -> first t j = true -> nth i t [] = nth j t [] -> i = j.
Proof.
  unfold first. intros t i j Hi Hj E. apply andb_true_iff in Hi as [_ Hi]. apply andb_true_iff in Hj as [_ Hj].
  apply N.eqb_eq in Hi, Hj. rewrite E in Hi. lia.
Qed.

Lemma find_app_in : forall (t t' : list bytes) (id : bytes), In id t ->
  token_table_find_token_index (t ++ t') id = token_table_find_token_index t id.
Proof.
  unfold token_table_find_token_index. intros t t' id. generalize 0.
  induction t as [|x t IH]; intros n H; [destruct H|]. cbn [app find_index_from].
  destruct (bytes_eqb x id) eqn:E; [reflexivity|]. apply IH.
  destruct H as [->|H]; [rewrite bytes_eqb_refl in E; discriminate|assumption].
Qed.
Lemma find_app_new : forall (t : list bytes) (id : bytes), ~ In id t ->
  token_table_find_token_index (t ++ [id]) id = blen t.
Proof.
  unfold token_table_find_token_index. intros t id H.
  assert (G : forall n, find_index_from n (t ++ [id]) id = n + blen t).
  { induction t as [|x t IH]; intros n.
    - cbn. rewrite bytes_eqb_refl, blen_nil. lia.
    - cbn [app find_index_from]. replace (bytes_eqb x id) with false.
      + rewrite IH; [rewrite blen_cons; lia|]. intro. apply H. right. assumption.
      + symmetry. apply bytes_eqb_neq. intros ->. apply H. left. reflexivity. }
  rewrite G. lia.
Qed.
Lemma first_app_old : forall (t : list bytes) (id : bytes) i, (i < length t)%nat -> first (t ++ [id]) i = first t i.
Proof.
  intros t id i H. unfold first. rewrite app_length. cbn [length].
  rewrite (proj2 (Nat.ltb_lt i (length t + 1))) by lia. rewrite (proj2 (Nat.ltb_lt i (length t))) by lia.
  rewrite app_nth1 by assumption. rewrite find_app_in by (apply nth_In; assumption). reflexivity.
Qed.
Lemma first_app_new : forall (t : list bytes) (id : bytes), ~ In id t -> first (t ++ [id]) (length t) = true.
Proof.
  intros t id H. unfold first. rewrite app_length. cbn [length].
  rewrite (proj2 (Nat.ltb_lt (length t) (length t + 1))) by lia.
  rewrite app_nth2, Nat.sub_diag by lia. cbn [nth]. rewrite find_app_new by assumption.
  unfold blen. rewrite N.eqb_refl. reflexivity.
Qed.
Lemma first_out : forall (t : list bytes) i, (length t <= i)%nat -> first t i = false.
Proof. intros. unfold first. rewrite (proj2 (Nat.ltb_ge i (length t))) by lia. reflexivity. Qed.

(** ** Balances *)

(** The 20 slots hold the balance of the id at each first position, zero elsewhere. *)
Record am_rel (c : amounts) (bal : bytes -> Z) : Prop := mk_am_rel {
  ar_len : length (am_tokens c) = 20%nat;
  ar_table : (length (am_table c) <= 20)%nat;
  ar_slot : forall i, (i < 20)%nat ->
    nth i (am_tokens c) 0%Z = if first (am_table c) i then bal (nth i (am_table c) []) else 0%Z;
  ar_out : forall id, ~ In id (am_table c) -> bal id = 0%Z;
  ar_range : forall id, i64_ok (bal id) = true }.

Lemma am_rel_ext : forall c b b', (forall x, b x = b' x) -> am_rel c b -> am_rel c b'.
Proof.
  intros c b b' H [H1 H2 H3 H4 H5]. constructor; try assumption.
  - intros i Hi. rewrite (H3 i Hi). destruct (first (am_table c) i); auto.
  - intros id Hi. rewrite <- H. auto.
  - intros id. rewrite <- H. auto.
Qed.

Definition upd (b : bytes -> Z) (id : bytes) (v : Z) : bytes -> Z :=
  fun x => (b x + if bytes_eqb id x then v else 0)%Z.

Lemma am_rel_set : forall c b id i v,
  am_rel c b -> (i < 20)%nat -> first (am_table c) i = true -> nth i (am_table c) [] = id ->
  i64_ok (b id + v) = true ->
  am_rel (am_set_tokens c (set_nth i (nth i (am_tokens c) 0 + v)%Z (am_tokens c))) (upd b id v).
Proof.
  intros c b id i v [H1 H2 H3 H4 H5] Hi Hf Hn Hr. constructor; cbn.
  - rewrite set_nth_length. assumption.
  - assumption.
  - intros j Hj. destruct (Nat.eq_dec i j) as [<-|Hne].
    + rewrite set_nth_same by lia. rewrite Hf, (H3 i Hi), Hf, Hn. unfold upd. rewrite bytes_eqb_refl. reflexivity.
    + rewrite set_nth_other by assumption. rewrite (H3 j Hj). destruct (first (am_table c) j) eqn:Hfj; [|reflexivity].
      unfold upd. replace (bytes_eqb id (nth j (am_table c) [])) with false; [lia|].
      symmetry. apply bytes_eqb_neq. intro E. apply Hne. apply (first_unique (am_table c)); congruence.
  - intros x Hx. unfold upd. rewrite (H4 x Hx). replace (bytes_eqb id x) with false; [lia|].
    symmetry. apply bytes_eqb_neq. intros <-. apply Hx. rewrite <- Hn. apply nth_In.
    unfold first in Hf. apply andb_true_iff in Hf as [Hf _]. apply Nat.ltb_lt in Hf. assumption.
  - intros x. unfold upd. destruct (bytes_eqb id x) eqn:E; [apply bytes_eqb_eq in E; subst x; assumption|].
    rewrite Z.add_0_r. apply H5.
Qed.

Lemma am_rel_add_id : forall c b id,
  am_rel c b -> ~ In id (am_table c) -> (length (am_table c) < 20)%nat ->
  am_rel (am_set_table (am_table c ++ [id]) c) b.
Proof.
  intros c b id [H1 H2 H3 H4 H5] Hn Hl. constructor; cbn.
  - assumption.
  - rewrite app_length. cbn. lia.
  - intros i Hi. rewrite (H3 i Hi). destruct (Nat.lt_trichotomy i (length (am_table c))) as [Hlt|[->|Hgt]].
    + rewrite first_app_old by assumption. rewrite app_nth1 by assumption. reflexivity.
    + rewrite first_app_new by assumption. rewrite first_out by lia.
      rewrite app_nth2, Nat.sub_diag by lia. cbn. symmetry. apply H4. assumption.
    + rewrite !first_out; [reflexivity| |lia]. rewrite app_length. cbn. lia.
  - intros x Hx. apply H4. intro. apply Hx. apply in_or_app. left. assumption.
  - assumption.
Qed.

Lemma set_nth_id : forall A (l : list A) i d, (i < length l)%nat -> set_nth i (nth i l d) l = l.
Proof.
  induction l as [|x l IH]; intros [|i] d H; cbn in *; try lia; try reflexivity. f_equal. apply IH. lia.
Qed.
Lemma tok_get_nth : forall l i, (N.to_nat i < length l)%nat -> tok_get l i = Some (nth (N.to_nat i) l 0%Z).
Proof. intros. unfold tok_get. apply nth_error_nth'. assumption. Qed.

Lemma add_input_token_ok : forall c b id v c',
  am_rel c b -> (forall x, (0 <= b x)%Z) -> v < two64 ->
  amounts_add_input_token c id v = (R_OK, c') ->
  am_rel c' (upd b id (Z.of_N v)) /\ am_fee c' = am_fee c /\ am_value c' = am_value c /\
  am_table c' = (if existsb (bytes_eqb id) (am_table c) then am_table c else am_table c ++ [id]).
Proof.
  intros c b id v c' R Hpos Hv H. unfold amounts_add_input_token in H.
  destruct (find_spec (am_table c) id (ar_table _ _ R)) as [(Hi & Hl & Hn & Hf & Hin)|[Hi Hn]].
  - set (i := token_table_find_token_index (am_table c) id) in *.
    rewrite (proj2 (N.eqb_neq i INDEX_NOT_EXIST)) in H by assumption.
    rewrite (proj2 (N.eqb_neq i INDEX_NOT_EXIST)) in H by assumption.
    pose proof (ar_table _ _ R) as Ht. pose proof (ar_len _ _ R) as Hlen.
    rewrite tok_get_nth in H by lia.
    assert (Es : nth (N.to_nat i) (am_tokens c) 0%Z = b id).
    { rewrite (ar_slot _ _ R) by lia. rewrite Hf, Hn. reflexivity. }
    rewrite checked_add_i64_exact in H; [|rewrite Es; apply R|rewrite Es; specialize (Hpos id); lia|assumption].
    rewrite Es in H. destruct (i64_ok (b id + Z.of_N v)) eqn:Eok; [|discriminate].
    injection H as <-. rewrite <- Es at 1. split.
    + apply am_rel_set; try assumption; lia.
    + split; [reflexivity|]. split; [reflexivity|].
      replace (existsb (bytes_eqb id) (am_table c)) with true; [reflexivity|].
      symmetry. apply existsb_exists. exists id. split; [assumption|apply bytes_eqb_refl].
  - rewrite Hi in H. rewrite N.eqb_refl in H. unfold token_table_add_token in H.
    destruct (TOKEN_MAX_COUNT <=? blen (am_table c)) eqn:Em; cbn in H.
    { rewrite N.eqb_refl in H. cbn in H. rewrite ?N.eqb_refl in H. discriminate. }
    unfold TOKEN_MAX_COUNT in Em. apply N.leb_gt in Em. unfold blen in Em.
    assert (Hlt : (length (am_table c) < 20)%nat) by lia.
    assert (Hb : blen (am_table c) <> INDEX_NOT_EXIST) by (unfold blen, INDEX_NOT_EXIST; lia).
    rewrite (proj2 (N.eqb_neq _ _) Hb) in H. rewrite (proj2 (N.eqb_neq _ _) Hb) in H.
    unfold blen in H at 1 2 3. rewrite Nat2N.id in H.
    assert (Z0 : nth (length (am_table c)) (am_tokens c) 0%Z = 0%Z).
    { rewrite (ar_slot _ _ R) by lia. rewrite first_out by lia. reflexivity. }
    pose proof (ar_len _ _ R) as Hlen.
    assert (Es : set_nth (length (am_table c)) 0%Z (am_tokens c) = am_tokens c).
    { rewrite <- Z0 at 1. apply set_nth_id. lia. }
    cbn [am_tokens am_set_tokens] in H. rewrite Es in H.
    rewrite tok_get_nth in H by (rewrite Nat2N.id; lia). rewrite Nat2N.id, Z0 in H.
    rewrite checked_add_i64_exact in H; [|reflexivity|discriminate|assumption].
    destruct (i64_ok (0 + Z.of_N v)) eqn:Eok; [|discriminate]. inv H. split.
    + assert (R' := am_rel_add_id c b id R Hn Hlt).
      assert (Bz : b id = 0%Z) by (apply R; assumption).
      assert (G := am_rel_set (am_set_table (am_table c ++ [id]) c) b id (length (am_table c)) (Z.of_N v) R' Hlt).
      cbn [am_table am_set_table am_tokens am_set_tokens] in G. rewrite Z0 in G.
      unfold blen. rewrite Nat2N.id, Es. change (am_set_tokens (am_set_tokens ?x ?y) ?z) with (am_set_tokens x z).
      apply G.
      * apply first_app_new. assumption.
      * rewrite app_nth2, Nat.sub_diag by lia. reflexivity.
      * rewrite Bz. assumption.
    + split; [reflexivity|]. split; [reflexivity|].
      replace (existsb (bytes_eqb id) (am_table c)) with false; [reflexivity|].
      symmetry. apply not_true_is_false. intro E. apply existsb_exists in E as (x & Hx & E).
      apply bytes_eqb_eq in E. subst x. contradiction.
Qed.

Lemma add_output_token_ok : forall c b id v c',
  am_rel c b -> v < two64 -> amounts_add_output_token c id v = (R_OK, c') ->
  am_rel c' (upd b id (- Z.of_N v)) /\ am_fee c' = am_fee c /\ am_value c' = am_value c /\
  am_table c' = am_table c /\ In id (am_table c).
Proof.
  intros c b id v c' R Hv H. unfold amounts_add_output_token in H.
  destruct (find_spec (am_table c) id (ar_table _ _ R)) as [(Hi & Hl & Hn & Hf & Hin)|[Hi Hn]].
  - set (i := token_table_find_token_index (am_table c) id) in *.
    rewrite (proj2 (N.eqb_neq i INDEX_NOT_EXIST)) in H by assumption.
    pose proof (ar_table _ _ R) as Ht. pose proof (ar_len _ _ R) as Hlen.
    rewrite tok_get_nth in H by lia.
    assert (Es : nth (N.to_nat i) (am_tokens c) 0%Z = b id).
    { rewrite (ar_slot _ _ R) by lia. rewrite Hf, Hn. reflexivity. }
    rewrite checked_sub_i64_exact in H; [|rewrite Es; apply R|assumption].
    rewrite Es in H. destruct (i64_ok (b id - Z.of_N v)) eqn:Eok; [|discriminate].
    injection H as <-. unfold Z.sub. rewrite <- Es at 1. split.
    + apply am_rel_set; try assumption; lia.
    + repeat split; assumption.
  - rewrite Hi, N.eqb_refl in H. discriminate.
Qed.

(** ** Values *)

Lemma add_input_ok : forall c v c', am_value c < two64 -> v < two64 ->
  amounts_add_input c v = (SW_OK, c') ->
  am_value c + v < two64 /\ c' = am_set_value c (am_value c + v).
Proof.
  intros c v c' Hc Hv H. unfold amounts_add_input in H. rewrite checked_add_u64_exact in H by assumption.
  destruct (am_value c + v <? two64) eqn:E; [|discriminate]. inv H. split; [lia|reflexivity].
Qed.
Lemma add_output_ok : forall c t v r c', am_value c < two64 -> am_fee c < two64 -> v < two64 ->
  amounts_add_output c t v = (r, c') -> res_pass r = true ->
  match t with
  | BT_TREE => c' = c
  | BT_CHANGE => v <= am_value c /\ c' = am_set_value c (am_value c - v)
  | BT_FEE => v <= am_value c /\ am_fee c + v < two64 /\
              c' = am_set_fee (am_set_value c (am_value c - v)) (am_fee c + v)
  end.
Proof.
  intros c t v r c' Hc Hf Hv H Hr. unfold amounts_add_output in H. destruct t.
  - rewrite checked_sub_u64_exact in H by assumption. destruct (v <=? am_value c) eqn:E; [|inv H; discriminate].
    cbn [am_fee am_set_value] in H. rewrite checked_add_u64_exact in H by assumption.
    destruct (am_fee c + v <? two64) eqn:E2; [|inv H; discriminate]. inv H. repeat split; lia.
  - rewrite checked_sub_u64_exact in H by assumption. destruct (v <=? am_value c) eqn:E; [|inv H; discriminate].
    inv H. split; [lia|reflexivity].
  - inv H. reflexivity.
Qed.

(** ** Tokens of one output *)

Record oi_rel (l : list N) (t : list bytes) (f : bytes -> N) : Prop := mk_oi_rel {
  or_len : length l = 20%nat;
  or_slot : forall i, (i < 20)%nat -> nth i l 0 = if first t i then f (nth i t []) else 0;
  or_out : forall id, ~ In id t -> f id = 0 }.
Definition updN (f : bytes -> N) (id : bytes) (v : N) : bytes -> N :=
  fun x => f x + if bytes_eqb id x then v else 0.
Lemma oi_rel_ext : forall l t f f', (forall x, f x = f' x) -> oi_rel l t f -> oi_rel l t f'.
Proof.
  intros l t f f' H [H1 H2 H3]. constructor; try assumption.
  - intros i Hi. rewrite (H2 i Hi). destruct (first t i); auto.
  - intros id Hi. rewrite <- H. auto.
Qed.
Lemma oi_rel_init : forall t, oi_rel (repeat 0 20) t (fun _ => 0).
Proof.
  intros t. constructor.
  - reflexivity.
  - intros i Hi. rewrite nth_repeat. destruct (first t i); reflexivity.
  - reflexivity.
Qed.

Lemma oi_add_token_ok : forall o t f id v o',
  (length t <= 20)%nat -> oi_rel (oi_tokens o) t f -> output_info_add_token o t id v = (R_OK, o') ->
  f id = 0 /\ In id t /\ oi_rel (oi_tokens o') t (updN f id v) /\ o' = oi_set_tokens o (oi_tokens o').
Proof.
  intros o t f id v o' Ht R H. unfold output_info_add_token in H.
  destruct (find_spec t id Ht) as [(Hi & Hl & Hn & Hf & Hin)|[Hi Hn]].
  - set (i := token_table_find_token_index t id) in *.
    rewrite (proj2 (N.eqb_neq i INDEX_NOT_EXIST)) in H by assumption.
    pose proof (or_len _ _ _ R) as Hlen.
    rewrite (nth_error_nth' (oi_tokens o) 0) in H by lia.
    rewrite (or_slot _ _ _ R) in H by lia. rewrite Hf, Hn in H.
    destruct (N.eqb_spec (f id) 0) as [E0|E0]; cbn [negb] in H; [|discriminate].
    split; [assumption|]. split; [assumption|]. injection H as <-. split; [|reflexivity]. cbn.
    destruct R as [R1 R2 R3]. constructor.
    + rewrite set_nth_length. assumption.
    + intros j Hj. destruct (Nat.eq_dec (N.to_nat i) j) as [<-|Hne].
      * rewrite set_nth_same by lia. rewrite Hf. unfold updN. fold i. rewrite Hn, E0, bytes_eqb_refl. lia.
      * rewrite set_nth_other by assumption. rewrite (R2 j Hj). destruct (first t j) eqn:Hfj; [|reflexivity].
        unfold updN. replace (bytes_eqb id (nth j t [])) with false; [lia|].
        symmetry. apply bytes_eqb_neq. intro E. apply Hne. apply (first_unique t); congruence.
    + intros x Hx. unfold updN. rewrite (R3 x Hx). destruct (bytes_eqb id x) eqn:E; [|reflexivity].
      apply bytes_eqb_eq in E. subst x. contradiction.
  - rewrite Hi, N.eqb_refl in H. discriminate.
Qed.
