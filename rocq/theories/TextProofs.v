(** Proofs about decimal, path, hexadecimal and amount texts. *)
From Coq Require Import String.
From Verif Require Import Lib Bip32 Format SpecText.
Local Open Scope list_scope.

(** Decimal numbers. *)
Lemma dec_value_app1 : forall t c, dec_value (t ++ [c]) = dec_value t * 10 + (c - 48).
Proof. intros. unfold dec_value. rewrite fold_left_app. reflexivity. Qed.
Lemma dec_value_acc : forall t a,
  fold_left (fun a c => a * 10 + (c - 48)) t a = a * 10 ^ blen t + dec_value t.
Proof.
  unfold dec_value. induction t as [|c t IH]; intro a.
  - cbn. lia.
  - cbn [fold_left]. rewrite IH, (IH (0 * 10 + (c - 48))). unfold blen. cbn [length].
    replace (N.of_nat (S (length t))) with (N.succ (N.of_nat (length t))) by lia.
    rewrite N.pow_succ_r by lia. ring.
Qed.
Lemma dec_value_app : forall a b, dec_value (a ++ b) = dec_value a * 10 ^ blen b + dec_value b.
Proof. intros. unfold dec_value at 1. rewrite fold_left_app. apply dec_value_acc. Qed.
Lemma dec_value_cons : forall c t, dec_value (c :: t) = (c - 48) * 10 ^ blen t + dec_value t.
Proof. intros. change (c :: t) with ([c] ++ t). rewrite dec_value_app. reflexivity. Qed.
Lemma dec_value_bound : forall t, Forall digit t -> dec_value t < 10 ^ blen t.
Proof.
  induction t as [|c t IH]; intro H.
  - cbn. lia.
  - inv H. rewrite dec_value_cons. specialize (IH H3). unfold digit in H2. unfold blen in *. cbn [length].
    replace (N.of_nat (S (length t))) with (N.succ (N.of_nat (length t))) by lia.
    rewrite N.pow_succ_r by lia. nia.
Qed.
Lemma dec_value_inj : forall a b, Forall digit a -> Forall digit b -> length a = length b ->
  dec_value a = dec_value b -> a = b.
Proof.
  induction a as [|x a IH]; intros [|y b] Ha Hb Hl E; simpl in Hl; try discriminate; [reflexivity|].
  inv Ha. inv Hb. injection Hl as Hl. rewrite !dec_value_cons in E.
  assert (Hbl : blen a = blen b) by (unfold blen; rewrite Hl; reflexivity). rewrite Hbl in E.
  pose proof (dec_value_bound a H2). pose proof (dec_value_bound b H4). rewrite Hbl in H.
  unfold digit in *. assert (x = y) by nia. subst y. f_equal. apply IH; auto. lia.
Qed.

Lemma dec_loop_spec : forall fuel n acc, n < 10 ^ N.of_nat fuel -> fuel <> O ->
  exists d, dec_loop fuel n acc = d ++ acc /\ is_decimal n d /\ (length d <= fuel)%nat.
Proof.
  induction fuel; intros n acc H Hf; [congruence|]. cbn [dec_loop]. cbv zeta.
  destruct (N.eqb_spec (n / 10) 0) as [E|E].
  - exists [48 + n mod 10]. split; [reflexivity|]. split; [|simpl; lia].
    split; [discriminate|]. split; [constructor; [unfold digit; lia|constructor]|].
    split; [unfold dec_value; cbn [fold_left]; lia|]. reflexivity.
  - assert (Hlt : n / 10 < 10 ^ N.of_nat fuel).
    { apply N.div_lt_upper_bound; [lia|]. replace (N.of_nat (S fuel)) with (N.succ (N.of_nat fuel)) in H by lia.
      rewrite N.pow_succ_r in H by lia. exact H. }
    destruct fuel as [|fuel]; [cbn in Hlt; lia|].
    destruct (IHfuel (n / 10) ((48 + n mod 10) :: acc) Hlt) as (d & -> & (Hn & Hd & Hv & Hz) & Hl); [discriminate|].
    exists (d ++ [48 + n mod 10]). split; [rewrite <- app_assoc; reflexivity|].
    split; [|rewrite app_length; simpl; lia].
    split; [destruct d; discriminate|]. split.
    { apply Forall_app. split; [assumption|]. constructor; [unfold digit; lia|constructor]. }
    split.
    { rewrite dec_value_app1, Hv. lia. }
    intro Hhd. destruct d as [|c d]; [congruence|]. simpl in Hhd, Hz. specialize (Hz Hhd).
    destruct d as [|c' d]; [|simpl in Hz; lia]. unfold dec_value in Hv. cbn [fold_left] in Hv. lia.
Qed.
Lemma dec_spec : forall n, n < 10 ^ 20 -> is_decimal n (dec n) /\ (1 <= length (dec n) <= 20)%nat.
Proof.
  intros n H. unfold dec. destruct (dec_loop_spec 20 n [] H) as (d & -> & Hd & Hl); [discriminate|].
  rewrite app_nil_r. split; [assumption|]. destruct Hd as (Hn & _). destruct d; [congruence|simpl in *; lia].
Qed.
Lemma is_decimal_lower : forall n t, is_decimal n t -> length t <> 1%nat -> 10 ^ N.of_nat (length t - 1) <= n.
Proof.
  intros n t (Hn & Hd & <- & Hz) Hl. destruct t as [|c t]; [congruence|].
  rewrite dec_value_cons. inv Hd. unfold digit in H1. simpl in Hz.
  assert (c <> 48) by (intro E; apply Hl; simpl; apply Hz; exact E).
  simpl length. replace (S (length t) - 1)%nat with (length t) by lia. unfold blen.
  assert (1 <= c - 48) by lia. nia.
Qed.
Lemma is_decimal_fun : forall n t t', is_decimal n t -> is_decimal n t' -> t = t'.
Proof.
  assert (W : forall n t t', is_decimal n t -> is_decimal n t' -> (length t < length t')%nat -> False).
  { intros n t t' H H' Hl. assert (length t' <> 1%nat).
    { destruct H as (Hn & _). destruct t; [congruence|]. simpl in *. lia. }
    pose proof (is_decimal_lower _ _ H' H0) as Hlo. destruct H as (_ & Hd & <- & _).
    pose proof (dec_value_bound t Hd). unfold blen in *.
    assert (10 ^ N.of_nat (length t' - 1) < 10 ^ N.of_nat (length t)) as HH by lia.
    apply N.pow_lt_mono_r_iff in HH; lia. }
  intros n t t' H H'. destruct (Nat.lt_trichotomy (length t) (length t')) as [Hl|[Hl|Hl]].
  - exfalso. eauto.
  - destruct H as (_ & Hd & Hv & _), H' as (_ & Hd' & Hv' & _). apply dec_value_inj; auto. congruence.
  - exfalso. eauto.
Qed.
Lemma is_decimal_inj : forall n m t, is_decimal n t -> is_decimal m t -> n = m.
Proof. intros n m t (_ & _ & H & _) (_ & _ & H' & _). congruence. Qed.
(** Digits followed by something that is not a digit can be split off uniquely. *)
Lemma digits_split : forall a b r s, Forall digit a -> Forall digit b ->
  (forall c, hd_error r = Some c -> ~ digit c) -> (forall c, hd_error s = Some c -> ~ digit c) ->
  a ++ r = b ++ s -> a = b /\ r = s.
Proof.
  induction a as [|x a IH]; intros [|y b] r s Ha Hb Hr Hs E; simpl in E.
  - auto.
  - subst r. inv Hb. exfalso. eapply Hr; [reflexivity|assumption].
  - subst s. inv Ha. exfalso. eapply Hs; [reflexivity|assumption].
  - inv E. inv Ha. inv Hb. destruct (IH b r s) as [-> ->]; auto.
Qed.

(** Paths. *)
Lemma component_text_inj : forall x y c c' r s, x < 2 ^ 32 -> y < 2 ^ 32 ->
  component_text x c -> component_text y c' ->
  (r = [] \/ hd_error r = Some 47) -> (s = [] \/ hd_error s = Some 47) ->
  c ++ r = c' ++ s -> x = y /\ r = s.
Proof.
  intros x y c c' r s Hx Hy (d & Hd & ->) (d' & Hd' & ->) Hr Hs E. rewrite <- !app_assoc in E.
  assert (NQ : ~ digit 39) by (unfold digit; lia). assert (NS : ~ digit 47) by (unfold digit; lia).
  apply digits_split in E.
  - destruct E as [<- E]. pose proof (is_decimal_inj _ _ _ Hd Hd') as Em.
    change (2 ^ 31) with 2147483648 in *. change (2 ^ 32) with 4294967296 in *.
    destruct (2147483648 <=? x) eqn:Ex, (2147483648 <=? y) eqn:Ey; simpl in E.
    + inv E. split; [lia|reflexivity].
    + destruct Hs as [->|Hs]; [discriminate|]. rewrite <- E in Hs. discriminate.
    + destruct Hr as [->|Hr]; [discriminate|]. rewrite E in Hr. discriminate.
    + split; [lia|assumption].
  - apply Hd.
  - apply Hd'.
  - intros k Hk. destruct (2 ^ 31 <=? x); simpl in Hk; [inv Hk; assumption|].
    destruct Hr as [->|Hr]; [discriminate|]. rewrite Hr in Hk. inv Hk. assumption.
  - intros k Hk. destruct (2 ^ 31 <=? y); simpl in Hk; [inv Hk; assumption|].
    destruct Hs as [->|Hs]; [discriminate|]. rewrite Hs in Hk. inv Hk. assumption.
Qed.
Lemma is_path_text_inj : forall p t, is_path_text p t -> forall q, is_path_text q t ->
  Forall (fun x => x < 2 ^ 32) p -> Forall (fun x => x < 2 ^ 32) q -> p = q.
Proof.
  induction 1 as [x c Hc|x p c t Hc Hp IH]; intros q Hq Fp Fq; inv Hq.
  - inv Fp. inv Fq. destruct (component_text_inj x x0 c c [] []) as [-> _]; auto.
  - exfalso. inv Fp. inv Fq.
    destruct (component_text_inj x x0 (c0 ++ str "/" ++ t) c0 [] (str "/" ++ t)) as [_ E]; auto.
    + rewrite app_nil_r. reflexivity.
    + discriminate.
  - exfalso. inv Fp. inv Fq.
    destruct (component_text_inj x x0 c (c ++ str "/" ++ t) (str "/" ++ t) []) as [_ E]; auto.
    + rewrite app_nil_r. reflexivity.
    + discriminate.
  - inv Fp. inv Fq. match goal with H : _ = _ ++ _ |- _ => rename H into E end.
    destruct (component_text_inj x x0 c c0 (str "/" ++ t) (str "/" ++ t0)) as [-> Et]; auto.
    inv Et. f_equal. apply IH; assumption.
Qed.

Definition comp_pieces (x : N) : list text :=
  dec (N.land x 0x7FFFFFFF) :: (if N.land x HARD =? 0 then [] else [[39]]).
Fixpoint pieces (p : path) : list text :=
  match p with
  | [] => []
  | x :: t => comp_pieces x ++ match t with [] => [] | _ => [47] :: pieces t end
  end.
Fixpoint put_all (cap : nat) (out : text) (ps : list text) : option text :=
  match ps with
  | [] => Some out
  | x :: t => match put_piece cap out x with None => None | Some out => put_all cap out t end
  end.
Lemma path_format_loop_all : forall p cap out, path_format_loop cap p out = put_all cap out (pieces p).
Proof.
  induction p as [|x t IH]; intros cap out; [reflexivity|].
  cbn [path_format_loop pieces comp_pieces put_all app].
  destruct (put_piece cap out (dec (N.land x 2147483647))) as [o|]; [|reflexivity].
  destruct (N.land x HARD =? 0); cbn [app put_all].
  - destruct t as [|y t]; [reflexivity|]. cbn [put_all].
    destruct (put_piece cap o [47]); [apply IH|reflexivity].
  - destruct (put_piece cap o [39]) as [o'|]; [|reflexivity].
    destruct t as [|y t]; [reflexivity|]. cbn [put_all].
    destruct (put_piece cap o' [47]); [apply IH|reflexivity].
Qed.
Lemma put_piece_spec : forall cap out x, x <> [] ->
  put_piece cap out x =
    if Nat.ltb (length out) (cap - 1) then Some (firstn (cap - 1) (out ++ x)) else None.
Proof.
  intros cap out x Hx. unfold put_piece. cbv zeta. rewrite firstn_length.
  assert (length x <> O) by (destruct x; [congruence|discriminate]).
  destruct (Nat.ltb_spec (length out) (cap - 1)).
  - replace (Nat.eqb _ 0) with false by (symmetry; apply Nat.eqb_neq; lia).
    replace (Nat.leb _ _) with false by (symmetry; apply Nat.leb_gt; lia). simpl.
    rewrite firstn_app. rewrite (firstn_all2 out) by lia. do 2 f_equal. f_equal. lia.
  - replace (Nat.eqb _ 0) with true by (symmetry; apply Nat.eqb_eq; lia). reflexivity.
Qed.
Lemma put_all_spec : forall ps cap out, ps <> [] -> Forall (fun x => x <> []) ps ->
  put_all cap out ps =
    if Nat.ltb (length (out ++ concat (removelast ps))) (cap - 1)
    then Some (firstn (cap - 1) (out ++ concat ps)) else None.
Proof.
  induction ps as [|x ps IH]; intros cap out Hne Hall; [congruence|]. inv Hall.
  cbn [put_all]. rewrite put_piece_spec by assumption.
  destruct ps as [|y ps].
  - simpl. rewrite !app_nil_r. destruct (Nat.ltb _ _); reflexivity.
  - change (removelast (x :: y :: ps)) with (x :: removelast (y :: ps)).
    assert (IH' := fun o => IH cap o ltac:(discriminate) H2). clear IH.
    set (R := removelast (y :: ps)) in *. set (Q := y :: ps) in *. clearbody R Q.
    cbn [concat]. destruct (Nat.ltb_spec (length out) (cap - 1)).
    + rewrite IH'. rewrite !app_length.
      destruct (Nat.leb_spec (length (out ++ x)) (cap - 1)) as [Hle|Hgt].
      * rewrite (firstn_all2 (out ++ x)) by lia. rewrite app_length, <- !app_assoc.
        rewrite Nat.add_assoc. reflexivity.
      * rewrite firstn_length_le by lia. rewrite app_length in Hgt.
        destruct (Nat.ltb_spec (cap - 1 + length (concat R)) (cap - 1)); [lia|].
        destruct (Nat.ltb_spec (length out + (length x + length (concat R))) (cap - 1)); [lia|].
        reflexivity.
    + rewrite app_length.
      destruct (Nat.ltb_spec (length out + length (x ++ concat R)) (cap - 1)); [lia|].
      reflexivity.
Qed.
Lemma land_hard : forall x, x < 2 ^ 32 -> (N.land x HARD =? 0) = negb (2 ^ 31 <=? x).
Proof.
  intros x Hx. change HARD with (2 ^ 31).
  assert (Hb : N.land x (2 ^ 31) = (x / 2 ^ 31 mod 2) * 2 ^ 31).
  { apply N.bits_inj. intro i. rewrite N.land_spec, N.pow2_bits_eqb.
    rewrite <- N.shiftr_div_pow2, <- N.shiftl_mul_pow2.
    destruct (N.eqb_spec 31 i) as [<-|H].
    - rewrite andb_true_r. rewrite N.shiftl_spec_high by lia. change (31 - 31) with 0.
      change 2 with (2 ^ 1) at 1. rewrite N.mod_pow2_bits_low by lia. rewrite N.shiftr_spec by lia.
      reflexivity.
    - rewrite andb_false_r. symmetry. destruct (N.ltb_spec i 31).
      + apply N.shiftl_spec_low. assumption.
      + rewrite N.shiftl_spec_high by lia. change 2 with (2 ^ 1). apply N.mod_pow2_bits_high. lia. }
  rewrite Hb. change (2 ^ 31) with 2147483648 in *. change (2 ^ 32) with 4294967296 in *. lia.
Qed.
Lemma land_low31 : forall x, N.land x 0x7FFFFFFF = x mod 2 ^ 31.
Proof. intro x. change 0x7FFFFFFF with (N.ones 31). apply N.land_ones. Qed.
Lemma comp_pieces_text : forall x, x < 2 ^ 32 -> component_text x (concat (comp_pieces x)).
Proof.
  intros x Hx. unfold comp_pieces. rewrite land_low31, land_hard by assumption.
  exists (dec (x mod 2 ^ 31)). split.
  - apply dec_spec. assert (x mod 2 ^ 31 < 2 ^ 31) by (apply N.mod_lt; discriminate).
    change (2 ^ 31) with 2147483648 in *. change (10 ^ 20) with 100000000000000000000. lia.
  - destruct (2 ^ 31 <=? x); cbn [negb concat]; rewrite ?app_nil_r; reflexivity.
Qed.
Lemma pieces_text : forall p, p <> [] -> Forall (fun x => x < 2 ^ 32) p ->
  is_path_text p (concat (pieces p)).
Proof.
  induction p as [|x t IH]; intros Hne Hall; [congruence|]. inv Hall.
  cbn [pieces]. rewrite concat_app. destruct t as [|y t].
  - cbn [concat]. rewrite app_nil_r. constructor. apply comp_pieces_text. assumption.
  - cbn [concat]. constructor; [apply comp_pieces_text; assumption|].
    apply IH; [discriminate|assumption].
Qed.
Lemma dec_nonnil : forall n, n < 10 ^ 20 -> dec n <> [].
Proof. intros n H. apply dec_spec. assumption. Qed.
Lemma comp_pieces_nonnil : forall x, Forall (fun t => t <> []) (comp_pieces x).
Proof.
  intro x. unfold comp_pieces. constructor.
  - rewrite land_low31. apply dec_nonnil.
    assert (x mod 2 ^ 31 < 2 ^ 31) by (apply N.mod_lt; discriminate).
    change (2 ^ 31) with 2147483648 in *. change (10 ^ 20) with 100000000000000000000. lia.
  - destruct (_ =? _); constructor; [discriminate|constructor].
Qed.
Lemma pieces_nonnil : forall p, Forall (fun t => t <> []) (pieces p).
Proof.
  induction p as [|x t IH]; [constructor|]. cbn [pieces]. apply Forall_app. split; [apply comp_pieces_nonnil|].
  destruct t; [constructor|]. constructor; [discriminate|assumption].
Qed.
Lemma pieces_ne : forall p, p <> [] -> pieces p <> [].
Proof. destruct p; [congruence|]. intros _. cbn [pieces comp_pieces app]. discriminate. Qed.
Lemma pieces_last : forall p, p <> [] -> Forall (fun x => x < 2 ^ 32) p ->
  last (pieces p) [] = if 2 ^ 31 <=? last p 0 then [39] else dec (last p 0).
Proof.
  assert (L1 : forall A (a b : list A) d, b <> [] -> last (a ++ b) d = last b d).
  { intros A a b d Hb. induction a as [|x a IH]; [reflexivity|]. simpl.
    destruct (a ++ b) eqn:E; [apply app_eq_nil in E; tauto|exact IH]. }
  induction p as [|x t IH]; intros Hne Hall; [congruence|]. inv Hall. cbn [pieces].
  destruct t as [|y t].
  - rewrite app_nil_r. unfold comp_pieces. rewrite land_hard, land_low31 by assumption.
    cbn [last]. destruct (2 ^ 31 <=? x) eqn:E; cbn [negb last].
    + reflexivity.
    + rewrite N.mod_small by (apply N.leb_gt; exact E). reflexivity.
  - rewrite L1 by discriminate.
    change ([47] :: pieces (y :: t)) with ([[47]] ++ pieces (y :: t)).
    rewrite L1 by (apply (pieces_ne (y :: t)); discriminate).
    exact (IH ltac:(discriminate) H2).
Qed.

(** The complete description of the SDK's path formatting. *)
Lemma path_format_spec : forall cap p full, (1 <= length p <= 10)%nat ->
  Forall (fun x => x < 2 ^ 32) p -> full = concat (pieces p) ->
  bip32_path_format cap p =
    if Nat.ltb (length full - length (last (pieces p) [])) (cap - 1)
    then Some (firstn (cap - 1) full) else None.
Proof.
  intros cap p full Hlen Hall ->. unfold bip32_path_format.
  replace ((blen p =? 0) || (MAX_BIP32_PATH <? blen p)) with false by (unfold blen, MAX_BIP32_PATH; lia).
  assert (Hp : p <> []) by (destruct p; [simpl in Hlen; lia|discriminate]).
  rewrite path_format_loop_all, put_all_spec; [|apply pieces_ne; assumption|apply pieces_nonnil].
  cbn [app].
  assert (E : concat (pieces p) = concat (removelast (pieces p)) ++ last (pieces p) []).
  { rewrite (app_removelast_last [] (pieces_ne p Hp)) at 1.
    rewrite concat_app. cbn [concat]. rewrite app_nil_r. reflexivity. }
  assert (El : (length (concat (pieces p)) - length (last (pieces p) []) =
               length (concat (removelast (pieces p))))%nat).
  { rewrite E, app_length. lia. }
  rewrite El. reflexivity.
Qed.
Lemma path_format_complete : forall cap p, (1 <= length p <= 10)%nat ->
  Forall (fun x => x < 2 ^ 32) p ->
  exists full, is_path_text p full /\
    ((length full < cap)%nat -> bip32_path_format cap p = Some full) /\
    (forall t, bip32_path_format cap p = Some t -> (length t < cap)%nat /\
       (t = full \/ (length t = cap - 1)%nat /\ t = firstn (length t) full /\ last p 0 < 2 ^ 31)).
Proof.
  intros cap p Hlen Hall. exists (concat (pieces p)).
  assert (Hp : p <> []) by (destruct p; [simpl in Hlen; lia|discriminate]).
  pose proof (pieces_text p Hp Hall) as Ht. split; [exact Ht|].
  rewrite (path_format_spec cap p _ Hlen Hall eq_refl).
  assert (Hlast : (1 <= length (last (pieces p) []))%nat).
  { pose proof (pieces_nonnil p) as Hn. rewrite (app_removelast_last [] (pieces_ne p Hp)) in Hn.
    apply Forall_app in Hn as [_ Hn]. inv Hn.
    destruct (Nat.eq_dec (length (last (pieces p) [])) 0) as [E|E]; [apply length_zero_iff_nil in E; contradiction|lia]. }
  assert (Hle : (length (last (pieces p) []) <= length (concat (pieces p)))%nat).
  { assert (E : concat (pieces p) = concat (removelast (pieces p)) ++ last (pieces p) []).
    { rewrite (app_removelast_last [] (pieces_ne p Hp)) at 1.
      rewrite concat_app. cbn [concat]. rewrite app_nil_r. reflexivity. }
    rewrite E, app_length. lia. }
  split.
  - intro Hfit. destruct (Nat.ltb_spec (length (concat (pieces p)) - length (last (pieces p) [])) (cap - 1)); [|lia].
    rewrite firstn_all2 by lia. reflexivity.
  - intros t E. destruct (Nat.ltb_spec (length (concat (pieces p)) - length (last (pieces p) [])) (cap - 1)); [|discriminate].
    inv E. rewrite firstn_length. split; [lia|].
    destruct (Nat.leb_spec (length (concat (pieces p))) (cap - 1)).
    + left. apply firstn_all2. assumption.
    + right. split; [lia|]. split; [rewrite Nat.min_l by lia; reflexivity|].
      rewrite pieces_last in * by assumption. destruct (N.leb_spec (2 ^ 31) (last p 0)); [|assumption].
      simpl in *. lia.
Qed.
Lemma path_format_bad_len : forall cap p, (length p = 0 \/ 10 < length p)%nat -> bip32_path_format cap p = None.
Proof.
  intros cap p H. unfold bip32_path_format.
  replace ((blen p =? 0) || (MAX_BIP32_PATH <? blen p)) with true by (unfold blen, MAX_BIP32_PATH; lia).
  reflexivity.
Qed.
Lemma path_format_range : forall cap p t, bip32_path_format cap p = Some t -> (1 <= length p <= 10)%nat.
Proof.
  intros cap p t H. unfold bip32_path_format in H.
  destruct ((blen p =? 0) || (MAX_BIP32_PATH <? blen p)) eqn:E; [discriminate|].
  unfold blen, MAX_BIP32_PATH in E. lia.
Qed.
Lemma path_format_inj : forall cap p q t,
  Forall (fun x => x < 2 ^ 32) p -> Forall (fun x => x < 2 ^ 32) q ->
  bip32_path_format cap p = Some t -> bip32_path_format cap q = Some t ->
  ((length t < cap - 1)%nat \/ 2 ^ 31 <= last p 0 /\ 2 ^ 31 <= last q 0) -> p = q.
Proof.
  intros cap p q t Fp Fq Hp Hq Hc.
  destruct (path_format_complete cap p) as (f & Hf & _ & H1); [eapply path_format_range; eassumption|assumption|].
  destruct (path_format_complete cap q) as (g & Hg & _ & H2); [eapply path_format_range; eassumption|assumption|].
  destruct (H1 t Hp) as [_ [->|(E1 & _ & E2)]]; [|exfalso; destruct Hc as [Hc|[Hc _]]; [lia|lia]].
  destruct (H2 f Hq) as [_ [->|(E1 & _ & E2)]]; [|exfalso; destruct Hc as [Hc|[_ Hc]]; [lia|lia]].
  eapply is_path_text_inj; eassumption.
Qed.

(** Hexadecimal ids. *)
Lemma hex_of_text : forall l, bytes_ok l = true -> hex_of l = hex_text l.
Proof.
  unfold hex_of, hex_text. induction l as [|b l IH]; intro H; [reflexivity|].
  apply bytes_ok_cons in H as [Hb Hl]. cbn [map concat flat_map]. rewrite IH by assumption.
  assert (D : forall n, n < 16 -> hex_digit n = hex_char n).
  { intros n Hn. unfold hex_digit, hex_char. destruct n as [|n]; [reflexivity|].
    do 4 (destruct n as [n|n|]; try reflexivity; try lia). }
  rewrite !D by lia. reflexivity.
Qed.
Lemma hex_of_length : forall l, length (hex_of l) = (2 * length l)%nat.
Proof. unfold hex_of. induction l as [|b l IH]; [reflexivity|]. cbn [map concat]. rewrite app_length, IH. cbn [length]. lia. Qed.
Lemma hex_digit_inj : forall a b, a < 16 -> b < 16 -> hex_digit a = hex_digit b -> a = b.
Proof. intros a b Ha Hb. unfold hex_digit. repeat case_if; lia. Qed.
Lemma hex_of_app : forall a b, hex_of (a ++ b) = hex_of a ++ hex_of b.
Proof. intros. unfold hex_of. rewrite map_app, concat_app. reflexivity. Qed.
Lemma hex_of_inj : forall a b, bytes_ok a = true -> bytes_ok b = true -> hex_of a = hex_of b -> a = b.
Proof.
  induction a as [|x a IH]; intros [|y b] Ha Hb E; try discriminate; [reflexivity|].
  apply bytes_ok_cons in Ha as [Hx Ha]. apply bytes_ok_cons in Hb as [Hy Hb].
  unfold hex_of in E. cbn [map concat app] in E. inv E.
  apply hex_digit_inj in H0; [|lia|lia]. apply hex_digit_inj in H1; [|lia|lia].
  assert (x = y) by lia. subst. f_equal. apply IH; auto.
Qed.
Lemma format_hex_id_32 : forall keep l, length l = 32%nat -> (keep = 26 \/ keep = 7)%nat ->
  format_hex_id keep l TEXT_LEN =
    Some (firstn keep (hex_of l) ++ str "..." ++ skipn (64 - keep) (hex_of l)).
Proof.
  intros keep l Hl Hk. unfold format_hex_id, format_hex. rewrite Hl. cbn [TEXT_LEN].
  replace (Nat.ltb TEXT_LEN (2 * 32 + 1)) with false by reflexivity.
  unfold id_string_remove_middle. rewrite hex_of_length, Hl.
  replace (Nat.leb (2 * 32) (2 * keep + 3)) with false by (symmetry; apply Nat.leb_gt; lia).
  reflexivity.
Qed.

(** Amounts. *)
Lemma str_app_inv_tail : forall (a b c : text), a ++ c = b ++ c -> a = b.
Proof. intros. eapply app_inv_tail. eassumption. Qed.
Lemma two64_lt : two64 < 10 ^ 20.
Proof. reflexivity. Qed.
Lemma Forall_digit_repeat : forall n, Forall digit (repeat 48 n).
Proof. induction n; simpl; constructor; auto. unfold digit. lia. Qed.
Lemma dec_value_zeros : forall n t, dec_value (repeat 48 n ++ t) = dec_value t.
Proof. induction n; intro t; simpl; [reflexivity|]. rewrite dec_value_cons, IHn. reflexivity. Qed.
Lemma Forall_firstn : forall A (P : A -> Prop) n l, Forall P l -> Forall P (firstn n l).
Proof.
  intros A P n l H. rewrite <- (firstn_skipn n l) in H. apply Forall_app in H. tauto.
Qed.
Lemma Forall_skipn : forall A (P : A -> Prop) n l, Forall P l -> Forall P (skipn n l).
Proof.
  intros A P n l H. rewrite <- (firstn_skipn n l) in H. apply Forall_app in H. tauto.
Qed.
Lemma erg_amount_spec : forall v cap, v < two64 -> (36 <= cap)%nat ->
  exists t, format_erg_amount v cap = Some t /\ is_erg_text v t /\ (length t <= 25)%nat.
Proof.
  intros v cap Hv Hcap. pose proof two64_lt as H20.
  destruct (dec_spec v) as [(Hn & Hd & Hval & Hz) Hl]; [lia|].
  unfold format_erg_amount, format_fpu64, ERG_DIGITS. cbv zeta.
  destruct (Nat.leb_spec (length (dec v)) 9) as [Hs|Hb].
  - replace (Nat.leb cap (2 + 9 - length (dec v))) with false by (symmetry; apply Nat.leb_gt; lia).
    rewrite (firstn_all2 (dec v)) by lia.
    set (fr := repeat 48 (9 - length (dec v)) ++ dec v).
    assert (Hfr : length fr = 9%nat) by (unfold fr; rewrite app_length, repeat_length; lia).
    assert (HF : Forall digit fr) by (apply Forall_app; split; [apply Forall_digit_repeat|assumption]).
    assert (Hfv : dec_value fr = v) by (unfold fr; rewrite dec_value_zeros; exact Hval).
    assert (Hv9 : v < 10 ^ 9).
    { rewrite <- Hfv. replace 9 with (blen fr) by (unfold blen; rewrite Hfr; reflexivity).
      apply dec_value_bound. assumption. }
    replace (Nat.ltb cap 5) with false by (symmetry; apply Nat.ltb_ge; lia). cbn [orb].
    assert (Hlen : length ([48; 46] ++ fr) = 11%nat) by (rewrite app_length, Hfr; reflexivity).
    rewrite Hlen. replace (Nat.ltb (cap - 5) 11) with false by (symmetry; apply Nat.ltb_ge; lia).
    eexists. split; [reflexivity|]. split.
    + exists [48], fr. split; [reflexivity|]. split.
      * rewrite N.div_small by assumption. split; [discriminate|].
        split; [constructor; [unfold digit; lia|constructor]|]. split; reflexivity.
      * rewrite N.mod_small by assumption. auto.
    + rewrite app_length, Hlen. simpl. lia.
  - replace (Nat.leb cap (length (dec v) + 1 + 9)) with false by (symmetry; apply Nat.leb_gt; lia).
    set (w := firstn (length (dec v) - 9) (dec v)). set (fr := skipn (length (dec v) - 9) (dec v)).
    assert (Hw : length w = (length (dec v) - 9)%nat) by (unfold w; apply firstn_length_le; lia).
    assert (Hfr : length fr = 9%nat) by (unfold fr; rewrite skipn_length; lia).
    assert (Hwf : dec v = w ++ fr) by (symmetry; apply firstn_skipn).
    assert (HF : Forall digit fr) by (apply Forall_skipn; assumption).
    assert (HW : Forall digit w) by (apply Forall_firstn; assumption).
    assert (Hsum : dec_value w * 10 ^ 9 + dec_value fr = v).
    { rewrite <- Hval at 1. rewrite Hwf, dec_value_app. unfold blen. rewrite Hfr. reflexivity. }
    assert (Hf9 : dec_value fr < 10 ^ 9).
    { replace 9 with (blen fr) by (unfold blen; rewrite Hfr; reflexivity).
      apply dec_value_bound. assumption. }
    replace (Nat.ltb cap 5) with false by (symmetry; apply Nat.ltb_ge; lia). cbn [orb].
    assert (Hlen : length (w ++ [46] ++ fr) = (length (dec v) + 1)%nat)
      by (rewrite !app_length, Hfr, Hw; simpl; lia).
    rewrite Hlen. replace (Nat.ltb (cap - 5) (length (dec v) + 1)) with false by (symmetry; apply Nat.ltb_ge; lia).
    eexists. split; [reflexivity|]. split.
    + exists w, fr. split; [rewrite <- !app_assoc; reflexivity|]. split.
      * assert (v / 10 ^ 9 = dec_value w) as ->.
        { symmetry. apply N.div_unique with (dec_value fr); lia. }
        split; [destruct w; [simpl in Hw; lia|discriminate]|]. split; [assumption|]. split; [reflexivity|].
        intro Hhd. exfalso. assert (hd 0 (dec v) = 48).
        { rewrite Hwf. destruct w; [simpl in Hw; lia|exact Hhd]. }
        specialize (Hz H). lia.
      * split; [assumption|]. split; [assumption|]. apply N.mod_unique with (dec_value w); lia.
    + rewrite app_length, Hlen. simpl. lia.
Qed.
Lemma erg_text_inj : forall v w t, is_erg_text v t -> is_erg_text w t -> v = w.
Proof.
  intros v w t (a & f & -> & Ha & Hf & HF & Hfv) (b & g & E & Hb & Hg & HG & Hgv).
  apply digits_split in E.
  - destruct E as [<- E]. simpl in E. inv E.
    apply app_inv_length in H0; [|lia]. destruct H0 as [<- _].
    pose proof (is_decimal_inj _ _ _ Ha Hb).
    rewrite (N.div_mod v (10 ^ 9)), (N.div_mod w (10 ^ 9)) by discriminate. congruence.
  - apply Ha.
  - apply Hb.
  - intros c Hc. inv Hc. unfold digit. lia.
  - intros c Hc. inv Hc. unfold digit. lia.
Qed.
Lemma format_u64_spec : forall v cap, v < two64 -> (21 <= cap)%nat ->
  exists t, format_u64 v cap = Some t /\ is_decimal v t /\ (length t <= 20)%nat.
Proof.
  intros v cap Hv Hcap. pose proof two64_lt. destruct (dec_spec v) as [Hd Hl]; [lia|].
  unfold format_u64. replace (Nat.ltb cap (length (dec v) + 1)) with false by (symmetry; apply Nat.ltb_ge; lia).
  exists (dec v). split; [reflexivity|]. split; [assumption|lia].
Qed.

(** Path validation. *)
Lemma forallb_hard : forall l, forallb (fun x => HARD <=? x) l = true <-> Forall (fun x => 2 ^ 31 <= x) l.
Proof. intro l. rewrite forallb_forall, Forall_forall. change (2 ^ 31) with HARD. split; intros H x Hx; specialize (H x Hx); lia. Qed.
Lemma forallb_soft : forall l, forallb (fun x => x <? HARD) l = true <-> Forall (fun x => x < 2 ^ 31) l.
Proof. intro l. rewrite forallb_forall, Forall_forall. change (2 ^ 31) with HARD. split; intros H x Hx; specialize (H x Hx); lia. Qed.
Lemma path_head : forall p, ((blen p <=? 2) || negb (nth 0 p 0 =? HARD + 44) || negb (nth 1 p 0 =? HARD + BIP32_ERGO_COIN)) = false <->
  exists x t, p = 2 ^ 31 + 44 :: 2 ^ 31 + 429 :: x :: t.
Proof.
  intro p. change (2 ^ 31 + 44) with (HARD + 44). change (2 ^ 31 + 429) with (HARD + BIP32_ERGO_COIN). split.
  - intro H. destruct p as [|a [|b [|c t]]]; try (unfold blen in H; simpl in H; discriminate).
    cbn [nth] in H. exists c, t. f_equal; [|f_equal]; lia.
  - intros (x & t & ->). cbn [nth]. rewrite !blen_cons. lia.
Qed.
Lemma validate_coin : forall p, ergo_path_validate p V_COIN = true <->
  exists x t, p = 2 ^ 31 + 44 :: 2 ^ 31 + 429 :: x :: t.
Proof.
  intro p. unfold ergo_path_validate, bip32_path_validate. cbv zeta. rewrite <- path_head.
  destruct (_ || _ || _); split; congruence.
Qed.
Lemma validate_hard : forall p v, v = V_COIN_GE2_HARD \/ v = V_ACCOUNT_GE3 ->
  (ergo_path_validate p v = true <->
   exists x t, p = 2 ^ 31 + 44 :: 2 ^ 31 + 429 :: x :: t /\ Forall (fun x => 2 ^ 31 <= x) (x :: t)).
Proof.
  intros p v Hv. unfold ergo_path_validate, bip32_path_validate. cbv zeta.
  pose proof (path_head p) as HP. destruct (_ || _ || _) eqn:E.
  - split; [discriminate|]. intros (x & t & -> & _). exfalso.
    destruct HP as [_ HP]. specialize (HP (ex_intro _ x (ex_intro _ t eq_refl))). congruence.
  - destruct HP as [HP _]. destruct (HP eq_refl) as (x & t & ->). clear HP E.
    destruct Hv as [-> | ->].
    + cbn [skipn]. rewrite forallb_hard. split.
      * intro H. eauto.
      * intros (x' & t' & E & H). inv E. exact H.
    + cbn [skipn]. rewrite !blen_cons. replace (_ <? 3) with false by lia. rewrite forallb_hard. split.
      * intro H. eauto.
      * intros (x' & t' & E & H). inv E. exact H.
Qed.
Lemma validate_account_e3 : forall p, ergo_path_validate p V_ACCOUNT_E3 = true <->
  exists a, p = [2 ^ 31 + 44; 2 ^ 31 + 429; a] /\ 2 ^ 31 <= a.
Proof.
  intro p. unfold ergo_path_validate, bip32_path_validate. cbv zeta.
  pose proof (path_head p) as HP. destruct (_ || _ || _) eqn:E.
  - split; [discriminate|]. intros (x & -> & _). exfalso.
    destruct HP as [_ HP]. specialize (HP (ex_intro _ x (ex_intro _ [] eq_refl))). congruence.
  - destruct HP as [HP _]. destruct (HP eq_refl) as (x & t & ->). clear HP E.
    cbn [nth]. rewrite !blen_cons. change (2 ^ 31 <= x) with (HARD <= x). split.
    + intro H. destruct t; [exists x; split; [reflexivity|change (2 ^ 31) with HARD; lia]|].
      rewrite blen_cons in H. lia.
    + intros (a & E & Ha). inv E. change (2 ^ 31) with HARD in Ha. rewrite blen_nil. lia.
Qed.
Lemma validate_address_e5 : forall p, ergo_path_validate p V_ADDRESS_E5 = true <->
  exists a c i, p = [2 ^ 31 + 44; 2 ^ 31 + 429; a; c; i] /\ 2 ^ 31 <= a /\ (c = 0 \/ c = 1) /\ i < 2 ^ 31.
Proof.
  intro p. unfold ergo_path_validate, bip32_path_validate. cbv zeta.
  pose proof (path_head p) as HP. destruct (_ || _ || _) eqn:E.
  - split; [discriminate|]. intros (x & c & i & -> & _). exfalso.
    destruct HP as [_ HP]. specialize (HP (ex_intro _ x (ex_intro _ [c; i] eq_refl))). congruence.
  - destruct HP as [HP _]. destruct (HP eq_refl) as (x & t & ->). clear HP E.
    cbn [nth]. rewrite !blen_cons. split.
    + intro H. destruct t as [|c [|i [|]]]; rewrite ?blen_cons, ?blen_nil in H; try lia.
      exists x, c, i. change (2 ^ 31) with HARD. cbn [nth] in H. split; [reflexivity|]. lia.
    + intros (a & c & i & E & Ha & Hc & Hi). inv E. change (2 ^ 31) with HARD in *.
      rewrite !blen_cons, blen_nil. cbn [nth]. lia.
Qed.
Lemma validate_address_ge5 : forall p, ergo_path_validate p V_ADDRESS_GE5 = true <->
  exists a c i t, p = 2 ^ 31 + 44 :: 2 ^ 31 + 429 :: a :: c :: i :: t /\ 2 ^ 31 <= a /\
    (c = 0 \/ c = 1) /\ Forall (fun x => x < 2 ^ 31) (i :: t).
Proof.
  intro p. unfold ergo_path_validate, bip32_path_validate. cbv zeta.
  pose proof (path_head p) as HP. destruct (_ || _ || _) eqn:E.
  - split; [discriminate|]. intros (x & c & i & t & -> & _). exfalso.
    destruct HP as [_ HP]. specialize (HP (ex_intro _ x (ex_intro _ (c :: i :: t) eq_refl))). congruence.
  - destruct HP as [HP _]. destruct (HP eq_refl) as (x & t & ->). clear HP E.
    cbn [nth]. rewrite !blen_cons. split.
    + intro H. destruct t as [|c [|i t]]; rewrite ?blen_cons, ?blen_nil in H; [discriminate H|discriminate H|].
      replace (_ <? 5) with false in H by lia. cbn [nth skipn] in H. change (2 ^ 31) with HARD.
      destruct (x <? HARD) eqn:E1; [discriminate|]. destruct (negb (c =? 0) && negb (c =? 1)) eqn:E2; [discriminate|].
      apply forallb_soft in H. exists x, c, i, t. split; [reflexivity|]. split; [lia|]. split; [lia|exact H].
    + intros (a & c & i & t' & E & Ha & Hc & Hi). inv E. change (2 ^ 31) with HARD in Ha.
      rewrite !blen_cons. replace (_ <? 5) with false by lia. cbn [nth skipn].
      replace (a <? HARD) with false by lia. replace (negb (c =? 0) && negb (c =? 1)) with false by lia.
      apply forallb_soft. exact Hi.
Qed.

(** Lengths of path texts. *)
Lemma component_len : forall x c, component_text x c -> (length c <= 11)%nat /\
  (x < 2 ^ 31 -> (length c <= 10)%nat).
Proof.
  intros x c (d & Hd & ->).
  assert (length d <= 10)%nat.
  { destruct (Nat.leb_spec (length d) 10); [assumption|].
    pose proof (is_decimal_lower _ _ Hd ltac:(lia)) as Hlo.
    assert (10 ^ 10 <= 10 ^ N.of_nat (length d - 1)) by (apply N.pow_le_mono_r; lia).
    assert (x mod 2 ^ 31 < 2 ^ 31) by (apply N.mod_lt; discriminate).
    change (2 ^ 31) with 2147483648 in *. change (10 ^ 10) with 10000000000 in *. lia. }
  rewrite app_length. split.
  - destruct (_ <=? _); simpl; lia.
  - intro Hx. destruct (N.leb_spec (2 ^ 31) x); simpl; lia.
Qed.
Lemma soft_path_len : forall p t, is_path_text p t -> Forall (fun x => x < 2 ^ 31) p ->
  (length t + 1 <= 11 * length p)%nat.
Proof.
  induction 1 as [x c Hc|x p c t Hc Hp IH]; intro F; inv F.
  - destruct (component_len _ _ Hc) as [_ H]. specialize (H ltac:(assumption)). simpl. lia.
  - destruct (component_len _ _ Hc) as [_ H]. specialize (H ltac:(assumption)). specialize (IH ltac:(assumption)).
    rewrite !app_length. simpl length. lia.
Qed.
Lemma component_exact : forall x c d, component_text x c -> is_decimal (x mod 2 ^ 31) d ->
  c = d ++ (if 2 ^ 31 <=? x then str "'" else []).
Proof. intros x c d (d' & Hd' & ->) Hd. rewrite (is_decimal_fun _ _ _ Hd' Hd). reflexivity. Qed.
Lemma component_dec : forall x c n, component_text x c -> x mod 2 ^ 31 = n -> n < 10 ^ 20 ->
  length c = (length (dec n) + if (2 ^ 31 <=? x)%N then 1 else 0)%nat.
Proof.
  intros x c n Hc <- Hn. destruct (dec_spec _ Hn) as [Hd _].
  rewrite (component_exact _ _ _ Hc Hd), app_length. destruct (_ <=? _); reflexivity.
Qed.
Lemma path_text_inv : forall x y p t, is_path_text (x :: y :: p) t ->
  exists c r, component_text x c /\ is_path_text (y :: p) r /\ t = c ++ str "/" ++ r.
Proof. intros x y p t H. inv H. eauto. Qed.
Lemma ge5_path_len : forall p t, ergo_path_validate p V_ADDRESS_GE5 = true -> is_path_text p t ->
  (length t <= 11 * length p - 22)%nat.
Proof.
  intros p t Hv Ht. apply validate_address_ge5 in Hv as (a & c & i & r & -> & Ha & Hc & Hs).
  apply path_text_inv in Ht as (c0 & t0 & H0 & Ht & ->).
  apply path_text_inv in Ht as (c1 & t1 & H1 & Ht & ->).
  apply path_text_inv in Ht as (c2 & t2 & H2 & Ht & ->).
  apply path_text_inv in Ht as (c3 & t3 & H3 & Ht & ->).
  assert (L0 : (length c0 = 3)%nat).
  { rewrite (component_dec _ _ 44 H0 eq_refl eq_refl). reflexivity. }
  assert (L1 : (length c1 = 4)%nat).
  { rewrite (component_dec _ _ 429 H1 eq_refl eq_refl). reflexivity. }
  destruct (component_len _ _ H2) as [L2 _].
  assert (L3 : (length c3 = 1)%nat).
  { destruct Hc as [-> | ->]; [rewrite (component_dec _ _ 0 H3 eq_refl eq_refl)|rewrite (component_dec _ _ 1 H3 eq_refl eq_refl)]; reflexivity. }
  pose proof (soft_path_len _ _ Ht Hs) as L4. rewrite !app_length. simpl length in *. lia.
Qed.
Lemma component_fun : forall x c c', component_text x c -> component_text x c' -> c = c'.
Proof. intros x c c' (d & Hd & ->) (d' & Hd' & ->). rewrite (is_decimal_fun _ _ _ Hd Hd'). reflexivity. Qed.
Lemma is_path_text_fun : forall q t1, is_path_text q t1 -> forall t2, is_path_text q t2 -> t1 = t2.
Proof.
  induction 1 as [x c Hc|x p c t Hc Hp IH]; intros t2 HH.
  - inv HH; [eapply component_fun; eassumption|].
    match goal with H : is_path_text [] _ |- _ => inv H end.
  - inv HH; [inv Hp|]. f_equal; [eapply component_fun; eassumption|]. f_equal. auto.
Qed.
Lemma ge5_path_shown : forall p, ergo_path_validate p V_ADDRESS_GE5 = true -> (length p <= 7)%nat ->
  Forall (fun x => x < 2 ^ 32) p ->
  exists t, is_path_text p t /\ forall cap, (60 <= cap)%nat -> bip32_path_format cap p = Some t.
Proof.
  intros p Hv Hl HF.
  assert (Hr : (1 <= length p <= 10)%nat).
  { apply validate_address_ge5 in Hv as (a & c & i & r & -> & _). simpl in *. lia. }
  assert (Hp : p <> []) by (intros ->; simpl in Hr; lia).
  exists (concat (pieces p)). pose proof (pieces_text p Hp HF) as Ht. split; [exact Ht|].
  intros cap Hc. pose proof (ge5_path_len p _ Hv Ht).
  rewrite (path_format_spec cap p _ Hr HF eq_refl).
  pose proof (path_format_complete cap p Hr HF) as (full & Hfull & Hfit & _).
  rewrite (is_path_text_fun _ _ Hfull _ Ht) in Hfit. specialize (Hfit ltac:(lia)).
  rewrite (path_format_spec cap p _ Hr HF eq_refl) in Hfit. exact Hfit.
Qed.

(** Ids. *)
Lemma id_shown : forall keep id, (keep = 26 \/ keep = 7)%nat -> length id = 32%nat -> bytes_ok id = true ->
  exists t, format_hex_id keep id TEXT_LEN = Some t /\ length t = (2 * keep + 3)%nat /\
    t = firstn keep (hex_text id) ++ str "..." ++ skipn (64 - keep) (hex_text id).
Proof.
  intros keep id Hk Hl Hok. rewrite format_hex_id_32 by assumption. rewrite <- hex_of_text by assumption.
  eexists. split; [reflexivity|]. split; [|reflexivity].
  rewrite !app_length, firstn_length, skipn_length, hex_of_length, Hl. simpl length. lia.
Qed.
Lemma id_shown_eq : forall keep a b, (keep = 26 \/ keep = 7)%nat ->
  length a = 32%nat -> length b = 32%nat -> bytes_ok a = true -> bytes_ok b = true ->
  (format_hex_id keep a TEXT_LEN = format_hex_id keep b TEXT_LEN <->
   firstn keep (hex_text a) = firstn keep (hex_text b) /\
   skipn (64 - keep) (hex_text a) = skipn (64 - keep) (hex_text b)).
Proof.
  intros keep a b Hk Ha Hb Oa Ob.
  rewrite !format_hex_id_32 by assumption. rewrite !hex_of_text by assumption. split.
  - intro E. inversion E as [E1]. apply app_inv_length in E1.
    + destruct E1 as [E1 E2]. inversion E2. auto.
    + rewrite <- !hex_of_text by assumption. rewrite !firstn_length, !hex_of_length. lia.
  - intros [-> ->]. reflexivity.
Qed.
Lemma id_shown_bytes : forall a b,
  length a = 32%nat -> length b = 32%nat -> bytes_ok a = true -> bytes_ok b = true ->
  (format_hex_id 26 a TEXT_LEN = format_hex_id 26 b TEXT_LEN <->
   firstn 13 a = firstn 13 b /\ skipn 19 a = skipn 19 b).
Proof.
  intros a b Ha Hb Oa Ob. rewrite id_shown_eq by (auto).
  rewrite <- !hex_of_text by assumption.
  assert (F : forall n l, (n <= length l)%nat -> firstn (2 * n) (hex_of l) = hex_of (firstn n l) /\
                          skipn (2 * n) (hex_of l) = hex_of (skipn n l)).
  { intros n l Hn. rewrite <- (firstn_skipn n l) at 1 3. rewrite hex_of_app.
    assert (length (hex_of (firstn n l)) = (2 * n)%nat) by (rewrite hex_of_length, firstn_length_le by lia; lia).
    rewrite firstn_app, skipn_app, H, Nat.sub_diag.
    rewrite <- H, firstn_all, skipn_all. simpl.
    rewrite app_nil_r. auto. }
  change (64 - 26)%nat with (2 * 19)%nat. change 26%nat with (2 * 13)%nat.
  rewrite (proj1 (F 13%nat a ltac:(lia))), (proj1 (F 13%nat b ltac:(lia))).
  rewrite (proj2 (F 19%nat a ltac:(lia))), (proj2 (F 19%nat b ltac:(lia))).
  split; intros [E1 E2]; [|rewrite E1, E2; split; reflexivity].
  split; apply hex_of_inj; auto using bytes_ok_firstn, bytes_ok_skipn.
Qed.
Lemma path_text_clash : exists p q t,
  ergo_path_validate p V_ADDRESS_GE5 = true /\ ergo_path_validate q V_ADDRESS_GE5 = true /\
  bip32_path_format 60 p = Some t /\ bip32_path_format 60 q = Some t /\ p <> q.
Proof.
  exists [2 ^ 31 + 44; 2 ^ 31 + 429; 2 ^ 32 - 1; 0; 2147483647; 2147483647; 2147483647; 2147483640].
  exists [2 ^ 31 + 44; 2 ^ 31 + 429; 2 ^ 32 - 1; 0; 2147483647; 2147483647; 2147483647; 2147483641].
  eexists. split; [reflexivity|]. split; [reflexivity|]. split; [vm_compute; reflexivity|].
  split; [vm_compute; reflexivity|]. intro E. vm_compute in E. discriminate E.
Qed.
Lemma id_clash : forall keep, (keep = 26 \/ keep = 7)%nat ->
  exists a b, length a = 32%nat /\ length b = 32%nat /\ bytes_ok a = true /\ bytes_ok b = true /\
    a <> b /\ format_hex_id keep a TEXT_LEN = format_hex_id keep b TEXT_LEN.
Proof.
  intros keep Hk. exists (repeat 5 16 ++ [1] ++ repeat 5 15), (repeat 5 32).
  split; [reflexivity|]. split; [reflexivity|]. split; [reflexivity|]. split; [reflexivity|].
  split; [intro E; vm_compute in E; discriminate E|]. destruct Hk as [-> | ->]; vm_compute; reflexivity.
Qed.
Lemma erg_shown : forall v, v < 2 ^ 64 ->
  exists t, format_erg_amount v TEXT_LEN = Some t /\ is_erg_text v t /\ (length t <= 25)%nat.
Proof. intros v Hv. apply erg_amount_spec; [exact Hv|unfold TEXT_LEN; lia]. Qed.
Lemma erg_injective : forall v w t, v < 2 ^ 64 -> w < 2 ^ 64 ->
  format_erg_amount v TEXT_LEN = Some t -> format_erg_amount w TEXT_LEN = Some t -> v = w.
Proof.
  intros v w t Hv Hw E1 E2. destruct (erg_shown v Hv) as (t1 & F1 & S1 & _).
  destruct (erg_shown w Hw) as (t2 & F2 & S2 & _). apply (erg_text_inj v w t); congruence.
Qed.
