(** General lemmas and tactics used by the proofs. *)
From Coq Require Export Lia ZifyBool ZifyNat ZifyN.
From Verif Require Export Base.
Ltac Zify.zify_post_hook ::= Z.div_mod_to_equations.

Ltac inv H := inversion H; subst; clear H.
(** Split the first [if] / [match] found in the goal or in [H]. *)
Ltac case_if := match goal with |- context [if ?b then _ else _] => destruct b eqn:? end.
Ltac case_match_in H :=
  match type of H with context [match ?x with _ => _ end] => destruct x eqn:? end.
Ltac case_match := match goal with |- context [match ?x with _ => _ end] => destruct x eqn:? end.

Lemma bytes_eqb_eq : forall a b, bytes_eqb a b = true <-> a = b.
Proof.
  induction a as [|x a IH]; destruct b as [|y b]; simpl; split; intro H; try congruence; try easy.
  - apply andb_true_iff in H as [H1 H2]. apply N.eqb_eq in H1. apply IH in H2. congruence.
  - inv H. rewrite N.eqb_refl. simpl. apply IH. reflexivity.
Qed.
Lemma bytes_eqb_refl : forall a, bytes_eqb a a = true.
Proof. intro a. apply bytes_eqb_eq. reflexivity. Qed.
Lemma bytes_eqb_neq : forall a b, bytes_eqb a b = false <-> a <> b.
Proof.
  intros a b. destruct (bytes_eqb a b) eqn:H.
  - apply bytes_eqb_eq in H. split; congruence.
  - split; [intros _ Heq; apply bytes_eqb_eq in Heq; congruence | reflexivity].
Qed.

Lemma bytes_ok_app : forall a b, bytes_ok (a ++ b) = bytes_ok a && bytes_ok b.
Proof. intros. apply forallb_app. Qed.
Lemma bytes_ok_cons : forall x l, bytes_ok (x :: l) = true <-> x < 256 /\ bytes_ok l = true.
Proof.
  intros. unfold bytes_ok, is_byte. simpl. rewrite andb_true_iff, N.ltb_lt. tauto.
Qed.
Lemma bytes_ok_firstn : forall n l, bytes_ok l = true -> bytes_ok (firstn n l) = true.
Proof.
  induction n; destruct l as [|x l]; simpl; intro H; try reflexivity.
  apply bytes_ok_cons in H as [H1 H2]. apply bytes_ok_cons. auto.
Qed.
Lemma bytes_ok_skipn : forall n l, bytes_ok l = true -> bytes_ok (skipn n l) = true.
Proof.
  induction n; destruct l as [|x l]; simpl; intro H; try assumption; try reflexivity.
  apply bytes_ok_cons in H as [H1 H2]. auto.
Qed.
Lemma bytes_ok_in : forall l x, bytes_ok l = true -> In x l -> x < 256.
Proof.
  intros l x H Hin. unfold bytes_ok in H. rewrite forallb_forall in H. apply H in Hin.
  unfold is_byte in Hin. lia.
Qed.

Lemma read_bytes_spec : forall n l v r,
  read_bytes n l = Some (v, r) <-> l = v ++ r /\ length v = n.
Proof.
  intros n l v r. unfold read_bytes. destruct (Nat.leb_spec n (length l)) as [H|H]; split; intro E.
  - inv E. rewrite firstn_skipn. split; [reflexivity | apply firstn_length_le; lia].
  - destruct E as [-> <-]. rewrite firstn_app, skipn_app, Nat.sub_diag, firstn_all, skipn_all.
    simpl. rewrite app_nil_r. reflexivity.
  - discriminate.
  - destruct E as [-> <-]. rewrite app_length in H. lia.
Qed.
Lemma read_bytes_none : forall n l, read_bytes n l = None <-> (length l < n)%nat.
Proof.
  intros. unfold read_bytes. destruct (Nat.leb_spec n (length l)); split; intro; try congruence; lia.
Qed.
Lemma read_be_spec : forall n l v r,
  read_be n l = Some (v, r) <-> exists b, l = b ++ r /\ length b = n /\ v = be_value b.
Proof.
  intros. unfold read_be. destruct (read_bytes n l) as [[b r']|] eqn:H.
  - apply read_bytes_spec in H as [-> Hl]. split; intro E.
    + inv E. eauto.
    + destruct E as (b' & E & Hl' & ->).
      assert (b = b' /\ r' = r) as [-> ->]; [|reflexivity].
      apply app_inv_head_iff with (l := []) in E. simpl in E.
      revert b' Hl Hl' E. clear. revert n.
      induction b as [|x b IH]; intros n [|y b'] Hl Hl' E; simpl in *; subst; try discriminate; auto.
      inv E. injection Hl' as Hl'. destruct (IH (length b) b' eq_refl Hl' H1) as [-> ->]. auto.
  - split; [discriminate|]. intros (b & -> & Hl & _).
    apply read_bytes_none in H. rewrite app_length in H. lia.
Qed.
Lemma read_u8_cons : forall b l, read_u8 (b :: l) = Some (b, l).
Proof. intros. unfold read_u8, read_be, read_bytes. simpl. reflexivity. Qed.
Lemma read_u8_nil : read_u8 [] = None.
Proof. reflexivity. Qed.

Lemma be_value_app1 : forall l b, be_value (l ++ [b]) = be_value l * 256 + b.
Proof. intros. unfold be_value. rewrite fold_left_app. reflexivity. Qed.
Lemma be_value_acc : forall l acc,
  fold_left (fun a b => a * 256 + b) l acc = acc * 256 ^ N.of_nat (length l) + be_value l.
Proof.
  unfold be_value. induction l as [|x l IH]; intro acc.
  - cbn. lia.
  - cbn [fold_left length]. rewrite IH. rewrite (IH (0 * 256 + x)).
    replace (N.of_nat (S (length l))) with (N.succ (N.of_nat (length l))) by lia.
    rewrite N.pow_succ_r by lia. ring.
Qed.
Lemma be_value_app : forall a b, be_value (a ++ b) = be_value a * 256 ^ blen b + be_value b.
Proof.
  intros. unfold be_value at 1. rewrite fold_left_app. apply be_value_acc.
Qed.
Lemma be_value_cons : forall x l, be_value (x :: l) = x * 256 ^ blen l + be_value l.
Proof. intros. change (x :: l) with ([x] ++ l). rewrite be_value_app. reflexivity. Qed.
Lemma be_value_bound : forall l, bytes_ok l = true -> be_value l < 256 ^ blen l.
Proof.
  induction l as [|x l IH]; intro H.
  - cbn. lia.
  - apply bytes_ok_cons in H as [H1 H2]. rewrite be_value_cons. specialize (IH H2).
    unfold blen in *. simpl length.
    replace (N.of_nat (S (length l))) with (N.succ (N.of_nat (length l))) by lia.
    rewrite N.pow_succ_r by lia. nia.
Qed.
Lemma be_bytes_length : forall n v, length (be_bytes n v) = n.
Proof. induction n; intro; simpl; [reflexivity|]. rewrite app_length, IHn. simpl. lia. Qed.
Lemma be_bytes_ok : forall n v, bytes_ok (be_bytes n v) = true.
Proof.
  induction n; intro; simpl; [reflexivity|]. rewrite bytes_ok_app, IHn. simpl.
  unfold is_byte. rewrite andb_true_r. apply N.ltb_lt. apply N.mod_lt. lia.
Qed.
Lemma be_value_be_bytes : forall n v, v < 256 ^ N.of_nat n -> be_value (be_bytes n v) = v.
Proof.
  induction n; intros v H.
  - cbn in *. lia.
  - cbn [be_bytes]. rewrite be_value_app1, IHn.
    + pose proof (N.div_mod v 256). lia.
    + replace (N.of_nat (S n)) with (N.succ (N.of_nat n)) in H by lia.
      rewrite N.pow_succ_r in H by lia. apply N.div_lt_upper_bound; lia.
Qed.
Lemma be_bytes_be_value : forall l, bytes_ok l = true -> be_bytes (length l) (be_value l) = l.
Proof.
  intro l. pattern l. apply rev_ind; clear l.
  - reflexivity.
  - intros x l IH H. rewrite bytes_ok_app in H. apply andb_true_iff in H as [H1 H2].
    apply bytes_ok_cons in H2 as [H2 _].
    rewrite app_length, Nat.add_comm. simpl. rewrite be_value_app1.
    replace ((be_value l * 256 + x) / 256) with (be_value l)
      by (apply N.div_unique with x; lia).
    replace ((be_value l * 256 + x) mod 256) with x
      by (apply N.mod_unique with (be_value l); lia).
    rewrite IH by assumption. reflexivity.
Qed.
Lemma be_bytes_inj : forall n a b, a < 256 ^ N.of_nat n -> b < 256 ^ N.of_nat n ->
  be_bytes n a = be_bytes n b -> a = b.
Proof. intros n a b Ha Hb H. rewrite <- (be_value_be_bytes n a), <- (be_value_be_bytes n b) by assumption. congruence. Qed.

Lemma blen_app : forall A (a b : list A), blen (a ++ b) = blen a + blen b.
Proof. intros. unfold blen. rewrite app_length. lia. Qed.
Lemma blen_cons : forall A (x : A) l, blen (x :: l) = blen l + 1.
Proof. intros. unfold blen. simpl length. lia. Qed.
Lemma blen_nil : forall A, blen (@nil A) = 0.
Proof. reflexivity. Qed.

Lemma set_nth_length : forall A i (x : A) l, length (set_nth i x l) = length l.
Proof. induction i; destruct l; simpl; auto. Qed.
Lemma set_nth_same : forall A i (x d : A) l, (i < length l)%nat -> nth i (set_nth i x l) d = x.
Proof. induction i; destruct l; simpl; intros; try lia; auto. apply IHi. lia. Qed.
Lemma set_nth_other : forall A i j (x d : A) l, i <> j -> nth j (set_nth i x l) d = nth j l d.
Proof.
  induction i; destruct l, j; simpl; intros; try reflexivity; try congruence.
  apply IHi. congruence.
Qed.

Lemma app_inv_length : forall A (a b c d : list A),
  length a = length c -> a ++ b = c ++ d -> a = c /\ b = d.
Proof.
  induction a as [|x a IH]; intros b [|y c] d Hl E; simpl in *; try discriminate; auto.
  inv E. injection Hl as Hl. destruct (IH b c d Hl H1) as [-> ->]. auto.
Qed.
