From Verif Require Import Lib RwBuffer SpecBuffer.

Lemma sz_sub_ge : forall a b, b <= a -> a < 2 ^ 32 -> sz_sub a b = a - b.
Proof.
  intros a b H Ha. unfold sz_sub, u32. change two32 with (2 ^ 32).
  replace (a + 2 ^ 32 - b) with (a - b + 1 * 2 ^ 32) by lia. rewrite N.mod_add by discriminate.
  apply N.mod_small. lia.
Qed.
Lemma sz_add_small : forall a b, a + b < 2 ^ 32 -> sz_add a b = a + b.
Proof. intros. unfold sz_add, u32. apply N.mod_small. assumption. Qed.
Lemma sz_add_wrap : forall a b, a < 2 ^ 32 -> b < 2 ^ 32 -> 2 ^ 32 <= a + b -> sz_add a b < a.
Proof.
  intros a b Ha Hb H. unfold sz_add, u32. change two32 with (2 ^ 32).
  replace (a + b) with (a + b - 2 ^ 32 + 1 * 2 ^ 32) by lia. rewrite N.mod_add by discriminate.
  rewrite N.mod_small; lia.
Qed.

Lemma data_len_valid : forall b, buffer_valid b -> rw_buffer_data_len b = rb_wpos b - rb_off b.
Proof. intros b (H1 & H2 & H3 & H4). apply sz_sub_ge; lia. Qed.
Lemma space_valid : forall b, buffer_valid b -> rw_buffer_empty_space_len b = rb_cap b - rb_wpos b.
Proof. intros b (H1 & H2 & H3 & H4). apply sz_sub_ge; lia. Qed.

(** The two seeks used after a successful access. *)
Lemma seek_read_cur_ok : forall b n, buffer_valid b -> n <= rb_wpos b - rb_off b ->
  rw_buffer_seek_read_cur b n = B_ok (rb_set_off b (rb_off b + n)) tt.
Proof.
  intros b n (H1 & H2 & H3 & H4) Hn. unfold rw_buffer_seek_read_cur. rewrite sz_add_small by lia.
  replace ((rb_off b + n <? rb_off b) || (rb_wpos b <? rb_off b + n)) with false by lia. reflexivity.
Qed.
Lemma seek_read_cur_cases : forall b n, buffer_valid b -> n < 2 ^ 32 ->
  rw_buffer_seek_read_cur b n = if n <=? rb_wpos b - rb_off b
                                then B_ok (rb_set_off b (rb_off b + n)) tt else B_fail b.
Proof.
  intros b n Hv Hn. destruct (N.leb_spec n (rb_wpos b - rb_off b)) as [H|H].
  - apply seek_read_cur_ok; assumption.
  - destruct Hv as (H1 & H2 & H3 & H4). unfold rw_buffer_seek_read_cur.
    destruct (N.lt_ge_cases (rb_off b + n) (2 ^ 32)) as [L|L].
    + rewrite sz_add_small by assumption.
      replace ((rb_off b + n <? rb_off b) || (rb_wpos b <? rb_off b + n)) with true by lia. reflexivity.
    + pose proof (sz_add_wrap (rb_off b) n ltac:(lia) Hn L).
      replace (sz_add (rb_off b) n <? rb_off b) with true by lia. reflexivity.
Qed.
Lemma seek_write_cur_cases : forall b n, buffer_valid b -> n < 2 ^ 32 ->
  rw_buffer_seek_write_cur b n = if n <=? rb_cap b - rb_wpos b
                                 then B_ok (rb_set_wpos b (rb_wpos b + n)) tt else B_fail b.
Proof.
  intros b n (H1 & H2 & H3 & H4) Hn. unfold rw_buffer_seek_write_cur.
  destruct (N.leb_spec n (rb_cap b - rb_wpos b)) as [H|H].
  - rewrite sz_add_small by lia.
    replace ((rb_wpos b + n <? rb_wpos b) || (rb_cap b <? rb_wpos b + n)) with false by lia. reflexivity.
  - destruct (N.lt_ge_cases (rb_wpos b + n) (2 ^ 32)) as [L|L].
    + rewrite sz_add_small by assumption.
      replace ((rb_wpos b + n <? rb_wpos b) || (rb_cap b <? rb_wpos b + n)) with true by lia. reflexivity.
    + pose proof (sz_add_wrap (rb_wpos b) n ltac:(lia) Hn L).
      replace (sz_add (rb_wpos b) n <? rb_wpos b) with true by lia. reflexivity.
Qed.

Lemma mem_get_ok : forall m i n, i + n <= blen m ->
  mem_get m i n = Some (firstn (N.to_nat n) (skipn (N.to_nat i) m)).
Proof. intros m i n H. unfold mem_get. replace (blen m <? i + n) with false by lia. reflexivity. Qed.
Lemma mem_put_ok : forall m i l, i + blen l <= blen m ->
  exists m', mem_put m i l = Some m' /\ length m' = length m /\
    firstn (N.to_nat i) m' = firstn (N.to_nat i) m /\
    firstn (length l) (skipn (N.to_nat i) m') = l /\
    skipn (N.to_nat i + length l) m' = skipn (N.to_nat i + length l) m.
Proof.
  intros m i l H. unfold mem_put. replace (blen m <? i + blen l) with false by lia.
  eexists. split; [reflexivity|]. unfold blen in H.
  assert (Hf : length (firstn (N.to_nat i) m) = N.to_nat i) by (apply firstn_length_le; lia).
  repeat split.
  - rewrite !app_length, Hf, skipn_length. lia.
  - rewrite firstn_app, Hf, Nat.sub_diag. simpl. rewrite app_nil_r, firstn_firstn, Nat.min_id. reflexivity.
  - rewrite skipn_app, Hf, Nat.sub_diag. rewrite (skipn_all2 (firstn _ m)) by lia. simpl.
    rewrite firstn_app, Nat.sub_diag, firstn_all. simpl. apply app_nil_r.
  - rewrite skipn_app, Hf, (skipn_all2 (firstn _ m)) by lia. simpl.
    replace (N.to_nat i + length l - N.to_nat i)%nat with (length l) by lia.
    rewrite skipn_app, Nat.sub_diag, skipn_all. reflexivity.
Qed.
Lemma mem_put_self : forall m i l m', mem_put m i l = Some m' -> length m' = length m.
Proof.
  intros m i l m' H. unfold mem_put in H. destruct (blen m <? i + blen l) eqn:E; [discriminate|]. inv H.
  rewrite !app_length, skipn_length, firstn_length_le; unfold blen in *; lia.
Qed.

(** * The queue view *)
Lemma unread_length : forall b, buffer_valid b -> length (unread b) = N.to_nat (rb_wpos b - rb_off b).
Proof.
  intros b (H1 & H2 & H3 & H4). unfold unread. rewrite firstn_length_le; [reflexivity|].
  rewrite skipn_length. unfold blen in H3. lia.
Qed.
Lemma firstn_skipn_firstn : forall A a n (l : list A), firstn a (firstn n l) = firstn (Nat.min a n) l.
Proof. intros. apply firstn_firstn. Qed.
Lemma skipn_plus : forall A a c (l : list A), skipn a (skipn c l) = skipn (c + a) l.
Proof.
  intros A a c l. revert l. induction c; intro l; [reflexivity|]. destruct l; simpl; [destruct a; reflexivity|apply IHc].
Qed.
Lemma unread_firstn : forall b n, n <= rb_wpos b - rb_off b ->
  firstn (N.to_nat n) (skipn (N.to_nat (rb_off b)) (rb_mem b)) = firstn (N.to_nat n) (unread b).
Proof. intros b n H. unfold unread. rewrite firstn_firstn, Nat.min_l by lia. reflexivity. Qed.
Lemma unread_skip : forall b n, n <= rb_wpos b - rb_off b ->
  unread (rb_set_off b (rb_off b + n)) = skipn (N.to_nat n) (unread b).
Proof.
  intros b n H. unfold unread. cbn [rb_set_off rb_wpos rb_off rb_mem].
  rewrite skipn_firstn_comm, skipn_plus. f_equal; [lia|]. f_equal. lia.
Qed.

Lemma copy_cases : forall b n, buffer_valid b -> n < 2 ^ 32 ->
  rw_buffer_copy_bytes b n = if n <=? rb_wpos b - rb_off b
                             then B_ok b (firstn (N.to_nat n) (unread b)) else B_fail b.
Proof.
  intros b n Hv Hn. unfold rw_buffer_copy_bytes, rw_buffer_can_read. rewrite data_len_valid by assumption.
  destruct (N.leb_spec n (rb_wpos b - rb_off b)) as [H|H]; [|reflexivity]. cbn [negb].
  destruct Hv as (H1 & H2 & H3 & H4). rewrite mem_get_ok by lia. rewrite unread_firstn by assumption. reflexivity.
Qed.
Lemma read_bytes_cases : forall b n, buffer_valid b -> n < 2 ^ 32 ->
  rw_buffer_read_bytes b n = if n <=? rb_wpos b - rb_off b
    then B_ok (rb_set_off b (rb_off b + n)) (firstn (N.to_nat n) (unread b)) else B_fail b.
Proof.
  intros b n Hv Hn. unfold rw_buffer_read_bytes. rewrite copy_cases by assumption.
  destruct (N.leb_spec n (rb_wpos b - rb_off b)) as [H|H]; [|reflexivity].
  rewrite seek_read_cur_ok by assumption. reflexivity.
Qed.
Lemma read_int_cases : forall big b n, buffer_valid b -> n < 2 ^ 32 ->
  rw_buffer_read_int big n b = if n <=? rb_wpos b - rb_off b
    then B_ok (rb_set_off b (rb_off b + n))
              (be_value (if big then firstn (N.to_nat n) (unread b) else rev (firstn (N.to_nat n) (unread b))))
    else B_fail b.
Proof.
  intros big b n Hv Hn. unfold rw_buffer_read_int, rw_buffer_can_read. rewrite data_len_valid by assumption.
  destruct (N.leb_spec n (rb_wpos b - rb_off b)) as [H|H]; [|reflexivity]. cbn [negb].
  rewrite seek_read_cur_ok by assumption.
  destruct Hv as (H1 & H2 & H3 & H4). rewrite mem_get_ok by lia. rewrite unread_firstn by assumption. reflexivity.
Qed.
Lemma write_bytes_cases : forall b l, buffer_valid b -> blen l < 2 ^ 32 ->
  if blen l <=? rb_cap b - rb_wpos b
  then exists b', rw_buffer_write_bytes b l = B_ok b' tt /\ buffer_valid b' /\
         rb_off b' = rb_off b /\ rb_wpos b' = rb_wpos b + blen l /\ rb_cap b' = rb_cap b /\
         length (rb_mem b') = length (rb_mem b) /\
         unread b' = unread b ++ l /\
         firstn (N.to_nat (rb_wpos b)) (rb_mem b') = firstn (N.to_nat (rb_wpos b)) (rb_mem b) /\
         skipn (N.to_nat (rb_wpos b) + length l) (rb_mem b') = skipn (N.to_nat (rb_wpos b) + length l) (rb_mem b)
  else rw_buffer_write_bytes b l = B_fail b.
Proof.
  intros b l Hv Hl. pose proof Hv as (H1 & H2 & H3 & H4).
  unfold rw_buffer_write_bytes, rw_buffer_can_write. rewrite space_valid by assumption.
  destruct (N.leb_spec (blen l) (rb_cap b - rb_wpos b)) as [H|H]; [|reflexivity]. cbn [negb].
  destruct (mem_put_ok (rb_mem b) (rb_wpos b) l ltac:(lia)) as (m & -> & Hml & Hm1 & Hm2 & Hm3).
  set (b0 := mk_rwb m (rb_off b) (rb_wpos b) (rb_cap b)).
  assert (V0 : buffer_valid b0).
  { unfold b0, buffer_valid, blen. cbn. rewrite Hml. unfold blen in H3. lia. }
  rewrite (seek_write_cur_cases b0) by assumption. cbn [b0 rb_cap rb_wpos].
  replace (blen l <=? rb_cap b - rb_wpos b) with true by lia. cbn [seek_done].
  eexists. split; [reflexivity|].
  unfold buffer_valid, rb_set_wpos. cbn [rb_off rb_wpos rb_cap rb_mem b0].
  unfold buffer_valid, b0 in V0. cbn in V0.
  repeat split; try assumption; try lia.
  unfold unread. cbn [rb_off rb_wpos rb_cap rb_mem].
  replace (N.to_nat (rb_wpos b + blen l - rb_off b))
    with (N.to_nat (rb_wpos b - rb_off b) + length l)%nat by (unfold blen; lia).
  assert (E : forall A i w n (x y : list A), (i <= w)%nat -> (w <= length x)%nat -> (w <= length y)%nat ->
    firstn w x = firstn w y ->
    firstn (w - i + n) (skipn i x) = firstn (w - i) (skipn i y) ++ firstn n (skipn w x)).
  { clear. intros A i w n x y Hi Hw Hy E.
    assert (X : firstn (w - i) (skipn i y) = firstn (w - i) (skipn i x)).
    { rewrite !firstn_skipn_comm. replace (i + (w - i))%nat with w by lia. congruence. }
    rewrite X. rewrite <- (firstn_skipn (w - i) (skipn i x)) at 1.
    rewrite firstn_app, firstn_firstn, Nat.min_r by lia.
    rewrite firstn_length_le by (rewrite skipn_length; lia).
    replace (w - i + n - (w - i))%nat with n by lia. rewrite skipn_plus.
    replace (i + (w - i))%nat with w by lia. reflexivity. }
  unfold blen in H3.
  replace (N.to_nat (rb_wpos b - rb_off b)) with (N.to_nat (rb_wpos b) - N.to_nat (rb_off b))%nat by lia.
  rewrite (E _ _ (N.to_nat (rb_wpos b)) (length l) m (rb_mem b)) by (try assumption; lia).
  rewrite Hm2. reflexivity.
Qed.

Lemma shift_cases : forall b, buffer_valid b ->
  exists b', rw_buffer_shift_data b = B_ok b' tt /\ buffer_valid b' /\ rb_off b' = 0 /\
    rb_wpos b' = rb_wpos b - rb_off b /\ rb_cap b' = rb_cap b /\
    length (rb_mem b') = length (rb_mem b) /\ unread b' = unread b.
Proof.
  intros b Hv. pose proof Hv as (H1 & H2 & H3 & H4). unfold rw_buffer_shift_data.
  destruct (N.eqb_spec (rb_off b) 0) as [E|E].
  - exists b. repeat split; try assumption; lia.
  - rewrite data_len_valid by assumption. cbv zeta. rewrite mem_get_ok by lia.
    pose proof (unread_length b Hv) as UL. fold (unread b).
    destruct (mem_put_ok (rb_mem b) 0 (unread b)) as (m & -> & Hml & _ & Hm2 & _).
    { unfold blen in *. rewrite UL. lia. }
    unfold rw_buffer_seek_read_set. cbn [rb_wpos].
    replace (rb_wpos b <? 0) with false by lia. cbn [seek_done].
    unfold rw_buffer_seek_write_set, rb_set_off. cbn [rb_wpos rb_cap rb_mem rb_off].
    replace (rb_cap b <? rb_wpos b - rb_off b) with false by lia. cbn [seek_done].
    eexists. split; [reflexivity|]. unfold rb_set_wpos, buffer_valid, unread. cbn [rb_off rb_wpos rb_cap rb_mem].
    unfold blen in *. rewrite Hml. repeat split; try lia.
    rewrite N.sub_0_r, <- UL. etransitivity; [exact Hm2|]. unfold unread at 1. rewrite UL. reflexivity.
Qed.

(** * One call *)
Lemma write_step_ok : forall b l, buffer_valid b -> blen l < 2 ^ 32 ->
  exists ok b', forget (rw_buffer_write_bytes b l) = Some (ok, b') /\ buffer_valid b' /\ rb_cap b' = rb_cap b /\
    length (rb_mem b') = length (rb_mem b) /\ (ok = false -> b' = b).
Proof.
  intros b l Hv Ho. pose proof (write_bytes_cases b l Hv Ho) as W. destruct (blen l <=? rb_cap b - rb_wpos b).
  - destruct W as (b' & E & Hv' & _ & _ & Hc & Hm & _). rewrite E. exists true, b'.
    repeat split; try assumption; try apply Hv'; congruence.
  - rewrite W. exists false, b. repeat split; try assumption; try apply Hv; congruence.
Qed.
Lemma rw_step_ok : forall b o, buffer_valid b -> orderly b o ->
  exists ok b', rw_step b o = Some (ok, b') /\ buffer_valid b' /\ rb_cap b' = rb_cap b /\
    length (rb_mem b') = length (rb_mem b) /\ (ok = false -> b' = b).
Proof.
  intros b o Hv Ho. pose proof Hv as (H1 & H2 & H3 & H4).
  destruct o; cbn [rw_step orderly] in *.
  - do 2 eexists. split; [reflexivity|]. unfold rw_buffer_empty, buffer_valid. cbn. repeat split; try lia; congruence.
  - destruct (shift_cases b Hv) as (b' & -> & Hv' & Ho' & Hw & Hc & Hm & _).
    exists true, b'. repeat split; try assumption; try apply Hv'; congruence.
  - unfold rw_buffer_seek_read_set. destruct (rb_wpos b <? o) eqn:?; cbn [forget];
      do 2 eexists; (split; [reflexivity|]); unfold buffer_valid, rb_set_off; cbn; repeat split; try lia; congruence.
  - rewrite seek_read_cur_cases by assumption. destruct (o <=? rb_wpos b - rb_off b) eqn:?; cbn [forget];
      do 2 eexists; (split; [reflexivity|]); unfold buffer_valid, rb_set_off; cbn; repeat split; try lia; congruence.
  - unfold rw_buffer_seek_read_end. destruct (rb_wpos b <? o) eqn:?; cbn [forget];
      do 2 eexists; (split; [reflexivity|]); unfold buffer_valid, rb_set_off; cbn; repeat split; try lia; congruence.
  - unfold rw_buffer_seek_write_set. destruct (rb_cap b <? o) eqn:?; cbn [forget];
      do 2 eexists; (split; [reflexivity|]); unfold buffer_valid, rb_set_wpos; cbn; repeat split; try lia; congruence.
  - rewrite seek_write_cur_cases by assumption. destruct (o <=? rb_cap b - rb_wpos b) eqn:?; cbn [forget];
      do 2 eexists; (split; [reflexivity|]); unfold buffer_valid, rb_set_wpos; cbn; repeat split; try lia; congruence.
  - unfold rw_buffer_seek_write_end. destruct (rb_cap b <? o) eqn:?; cbn [forget];
      do 2 eexists; (split; [reflexivity|]); unfold buffer_valid, rb_set_wpos; cbn; repeat split; try lia; congruence.
  - rewrite copy_cases by assumption. destruct (n <=? rb_wpos b - rb_off b) eqn:?; cbn [forget];
      do 2 eexists; (split; [reflexivity|]); repeat split; try assumption; congruence.
  - rewrite read_bytes_cases by assumption. destruct (n <=? rb_wpos b - rb_off b) eqn:?; cbn [forget];
      do 2 eexists; (split; [reflexivity|]); unfold buffer_valid, rb_set_off; cbn; repeat split; try lia; congruence.
  - rewrite read_int_cases by assumption. destruct (n <=? rb_wpos b - rb_off b) eqn:?; cbn [forget];
      do 2 eexists; (split; [reflexivity|]); unfold buffer_valid, rb_set_off; cbn; repeat split; try lia; congruence.
  - apply write_step_ok; assumption.
  - apply write_step_ok; [assumption|]. unfold blen. destruct big; rewrite ?rev_length, be_bytes_length; assumption.
Qed.

Lemma rw_run_ok : forall b ops r, rw_run b ops r -> buffer_valid b ->
  exists b', r = Some b' /\ buffer_valid b' /\ rb_cap b' = rb_cap b /\ length (rb_mem b') = length (rb_mem b).
Proof.
  induction 1 as [b|b o t Ho E|b o t ok b' r Ho E Hr IH]; intro Hv.
  - exists b. auto.
  - destruct (rw_step_ok b o Hv Ho) as (ok & b' & E' & _). congruence.
  - destruct (rw_step_ok b o Hv Ho) as (ok' & b'' & E' & Hv' & Hc & Hm & _).
    rewrite E in E'. inv E'. destruct (IH Hv') as (b3 & -> & Hv3 & Hc3 & Hm3). exists b3. repeat split; try apply Hv3; congruence.
Qed.

(** * Queue refinement, in the terms used by the command layer *)
Lemma read_int_refines : forall big b n, buffer_valid b -> n < 2 ^ 32 ->
  match read_bytes (N.to_nat n) (unread b) with
  | Some (l, rest) => exists b', rw_buffer_read_int big n b = B_ok b' (be_value (if big then l else rev l)) /\
      buffer_valid b' /\ unread b' = rest /\ rb_mem b' = rb_mem b
  | None => rw_buffer_read_int big n b = B_fail b
  end.
Proof.
  intros big b n Hv Hn. pose proof (unread_length b Hv) as UL. pose proof Hv as (H1 & H2 & H3 & H4).
  rewrite read_int_cases by assumption. unfold read_bytes. rewrite UL.
  destruct (Nat.leb_spec (N.to_nat n) (N.to_nat (rb_wpos b - rb_off b))) as [L|L].
  - replace (n <=? rb_wpos b - rb_off b) with true by lia. eexists. split; [reflexivity|].
    split; [unfold buffer_valid, rb_set_off; cbn; lia|]. split; [apply unread_skip; lia|reflexivity].
  - replace (n <=? rb_wpos b - rb_off b) with false by lia. reflexivity.
Qed.
Lemma read_bytes_refines : forall b n, buffer_valid b -> n < 2 ^ 32 ->
  match read_bytes (N.to_nat n) (unread b) with
  | Some (l, rest) => exists b', rw_buffer_read_bytes b n = B_ok b' l /\
      buffer_valid b' /\ unread b' = rest /\ rb_mem b' = rb_mem b
  | None => rw_buffer_read_bytes b n = B_fail b
  end.
Proof.
  intros b n Hv Hn. pose proof (unread_length b Hv) as UL. pose proof Hv as (H1 & H2 & H3 & H4).
  rewrite read_bytes_cases by assumption. unfold read_bytes. rewrite UL.
  destruct (Nat.leb_spec (N.to_nat n) (N.to_nat (rb_wpos b - rb_off b))) as [L|L].
  - replace (n <=? rb_wpos b - rb_off b) with true by lia. eexists. split; [reflexivity|].
    split; [unfold buffer_valid, rb_set_off; cbn; lia|]. split; [apply unread_skip; lia|reflexivity].
  - replace (n <=? rb_wpos b - rb_off b) with false by lia. reflexivity.
Qed.
Lemma write_refines : forall b l, buffer_valid b -> blen l < 2 ^ 32 ->
  (blen l <= rb_cap b - rb_wpos b ->
   exists b', rw_buffer_write_bytes b l = B_ok b' tt /\ buffer_valid b' /\ unread b' = unread b ++ l /\
     rb_off b' = rb_off b /\ length (rb_mem b') = length (rb_mem b) /\
     (forall i, (i < N.to_nat (rb_wpos b) \/ N.to_nat (rb_wpos b) + length l <= i)%nat ->
                nth i (rb_mem b') 0 = nth i (rb_mem b) 0)) /\
  (rb_cap b - rb_wpos b < blen l -> rw_buffer_write_bytes b l = B_fail b).
Proof.
  intros b l Hv Hl. pose proof (write_bytes_cases b l Hv Hl) as W. split; intro H.
  - replace (blen l <=? rb_cap b - rb_wpos b) with true in W by lia.
    destruct W as (b' & E & Hv' & Ho & Hw & Hc & Hm & Hu & Hf & Hs).
    exists b'. repeat split; try assumption; try apply Hv'.
    assert (NF : forall (x y : bytes) n i, firstn n x = firstn n y -> (i < n)%nat -> nth i x 0 = nth i y 0).
    { clear. intros x y n. revert x y. induction n; intros x y i E Hi; [lia|].
      destruct x as [|a x], y as [|c y]; simpl in E; try congruence.
      inv E. destruct i; simpl; [congruence|]. apply IHn; [assumption|lia]. }
    assert (NS : forall (x y : bytes) n i, skipn n x = skipn n y -> length x = length y -> (n <= i)%nat -> nth i x 0 = nth i y 0).
    { clear. intros x y n. revert x y. induction n; intros x y i E L Hi.
      - simpl in E. congruence.
      - destruct x as [|a x], y as [|c y]; simpl in *; try discriminate; [reflexivity|].
        destruct i; [lia|]. apply (IHn x y i); [assumption|lia|lia]. }
    intros i [Hi|Hi]; [eapply NF; eassumption|eapply NS; eassumption].
  - replace (blen l <=? rb_cap b - rb_wpos b) with false in W by lia. exact W.
Qed.
Lemma write_read_int : forall big n b v, buffer_valid b -> N.of_nat n <= rb_cap b - rb_wpos b ->
  v < 256 ^ N.of_nat n -> rb_off b = rb_wpos b ->
  exists b1 b2, rw_buffer_write_int big n b v = B_ok b1 tt /\
    rw_buffer_read_int big (N.of_nat n) b1 = B_ok b2 v /\ unread b2 = [].
Proof.
  intros big n b v Hv Hn Hval He. pose proof Hv as (H1 & H2 & H3 & H4).
  set (l := if big then be_bytes n v else rev (be_bytes n v)).
  assert (Hl : length l = n) by (unfold l; destruct big; rewrite ?rev_length; apply be_bytes_length).
  destruct (write_refines b l Hv) as [W _]; [unfold blen; lia|].
  destruct W as (b1 & E1 & Hv1 & Hu & _); [unfold blen; lia|].
  unfold rw_buffer_write_int. fold l. exists b1.
  assert (U0 : unread b = []).
  { unfold unread. rewrite He, N.sub_diag. reflexivity. }
  rewrite U0 in Hu. simpl in Hu.
  pose proof (read_int_refines big b1 (N.of_nat n) Hv1 ltac:(lia)) as R.
  rewrite Hu, Nat2N.id in R. unfold read_bytes in R. rewrite Hl, Nat.leb_refl in R.
  destruct R as (b2 & E2 & _ & Hu2 & _). exists b2. split; [exact E1|]. rewrite E2.
  assert (Fl : firstn n l = l) by (rewrite <- Hl; apply firstn_all).
  assert (Sl : skipn n l = []) by (rewrite <- Hl; apply skipn_all).
  rewrite Fl. split; [|congruence].
  f_equal. unfold l. destruct big; rewrite ?rev_involutive; apply be_value_be_bytes; assumption.
Qed.
Lemma write_seek_breaks :
  exists b o1 b' o2, buffer_valid b /\ rw_step b o1 = Some (true, b') /\ ~ buffer_valid b' /\
    rw_step b' o2 = None.
Proof.
  exists (mk_rwb [1; 2; 3; 4] 3 4 4), (RO_SEEK_WRITE_SET 0), (mk_rwb [1; 2; 3; 4] 3 0 4), (RO_COPY 8).
  repeat split.
  - cbn. lia.
  - cbn. lia.
  - unfold blen. cbn. lia.
  - intros (H & _). cbn in H. lia.
Qed.
