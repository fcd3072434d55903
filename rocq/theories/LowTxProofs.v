(** Every serializer call with failing hash updates and local buffers either does what the
    call of TxBox, TxInput, TxFull does, or ends with HASHER. *)
From Verif Require Import Lib Base CodecProofs Gve RwBuffer SpecBuffer RwBufferProofs ErgoTree TxTable TxBox TxInput TxFull Fault LowTx SpecFault.

#[local] Arguments N.eqb : simpl never.
#[local] Arguments N.ltb : simpl never.
#[local] Arguments N.leb : simpl never.
#[local] Arguments N.sub : simpl never.
#[local] Arguments blen : simpl never.
#[local] Arguments app : simpl never.

(** * Buffers *)
Definition room (n : N) (b : rwb) : Prop := buffer_valid b /\ rb_cap b = n.

Lemma array_room : forall F n, stack_ok F -> n < 2 ^ 32 -> room n (array_buffer F n) /\ array_buffer F n = rw_buffer_empty (array_buffer F n).
Proof.
  intros F n Hs Hn. split; [|reflexivity]. split; [|reflexivity]. unfold buffer_valid, array_buffer, rw_buffer_init. cbn.
  rewrite (Hs n). repeat split; try lia.
Qed.

Lemma empty_write : forall b n l, room n b -> blen l <= n ->
  exists b', rw_buffer_write_bytes (rw_buffer_empty b) l = B_ok b' tt /\ room n b' /\ written b' = Some l.
Proof.
  intros b n l [Hv Hc] Hl. pose proof Hv as (H1 & H2 & H3 & H4).
  assert (Hv' : buffer_valid (rw_buffer_empty b)) by (unfold buffer_valid, rw_buffer_empty; cbn; repeat split; lia).
  pose proof (write_bytes_cases (rw_buffer_empty b) l Hv' ltac:(lia)) as W.
  replace (blen l <=? rb_cap (rw_buffer_empty b) - rb_wpos (rw_buffer_empty b)) with true in W
    by (cbn [rw_buffer_empty rb_cap rb_wpos]; lia).
  destruct W as (b' & E & Hb & Ho & Hw & Hcap & Hm & Hu & _). exists b'. split; [exact E|]. split.
  { split; [exact Hb|]. rewrite Hcap. cbn. exact Hc. }
  assert (Hu' : unread b' = l) by (rewrite Hu; unfold unread, rw_buffer_empty; cbn; reflexivity).
  unfold written. rewrite data_len_valid by assumption. destruct Hb as (G1 & G2 & G3 & G4).
  rewrite mem_get_ok by lia. f_equal. exact Hu'.
Qed.

Lemma put_u64_empty : forall b n v, room n b -> v < two64 -> blen (gve_put_u64 v) <= n ->
  exists b', put_u64 (rw_buffer_empty b) v = B_ok b' tt /\ room n b' /\ written b' = Some (gve_put_u64 v).
Proof.
  intros b n v Hb Hv Hl. unfold put_u64. destruct (gve_put_u64_facts v Hv) as (_ & _ & _ & _ & ->). apply empty_write; assumption.
Qed.
Lemma put_len : forall v k, v < two64 -> v < 128 ^ N.of_nat k -> (1 <= k)%nat -> blen (gve_put_u64 v) <= N.of_nat k.
Proof.
  intros v k Hv H Hk. destruct (gve_put_u64_facts v Hv) as (_ & _ & [Hlo|Hlo] & _ & _); unfold blen; [|lia].
  destruct (Nat.leb_spec (length (gve_put_u64 v)) k) as [L|L]; [lia|exfalso].
  assert (128 ^ N.of_nat k <= 128 ^ N.of_nat (length (gve_put_u64 v) - 1)) by (apply N.pow_le_mono_r; lia). lia.
Qed.
Lemma put_u64_ok : forall b v, room 10 b -> v < two64 ->
  exists b', put_u64 (rw_buffer_empty b) v = B_ok b' tt /\ room 10 b' /\ written b' = Some (gve_put_u64 v).
Proof.
  intros b v Hb Hv. apply put_u64_empty; try assumption. destruct (gve_put_u64_facts v Hv) as (_ & Hl & _). unfold blen. lia.
Qed.
Lemma put_u32_ok : forall b v, room 10 b -> v < two32 ->
  exists b', put_u32 (rw_buffer_empty b) v = B_ok b' tt /\ room 10 b' /\ written b' = Some (gve_put_u32 v).
Proof.
  intros b v Hb Hv. unfold put_u32, u32. rewrite N.mod_small by assumption. apply put_u64_ok; [assumption|].
  unfold two32, two64 in *. lia.
Qed.
Lemma put_u16_ok : forall b v, room 4 b -> v < two16 ->
  exists b', put_u16 (rw_buffer_empty b) v = B_ok b' tt /\ room 4 b' /\ written b' = Some (gve_put_u16 v).
Proof.
  intros b v Hb Hv. unfold put_u16, u16. rewrite N.mod_small by assumption.
  assert (v < two64) by (unfold two16, two64 in *; lia).
  apply put_u64_empty; try assumption. apply (put_len v 4); try assumption; [|lia].
  change (128 ^ N.of_nat 4) with 268435456. unfold two16 in Hv. lia.
Qed.
Lemma put_u8_ok : forall b n v, room n b -> 1 <= n -> v < two8 ->
  exists b', put_u8 (rw_buffer_empty b) v = B_ok b' tt /\ room n b' /\ written b' = Some (gve_put_u8 v).
Proof.
  intros b n v Hb Hn Hv. unfold put_u8, rw_buffer_write_int. cbn [be_bytes]. change ([] ++ [v mod 256]) with [v mod 256].
  rewrite N.mod_small by (unfold two8 in Hv; exact Hv). apply empty_write; [assumption|]. unfold blen. cbn. exact Hn.
Qed.

(** * Updates *)
Definition simr {T} (F : faults) (x y : res * T) : Prop :=
  x = y \/ (call_failed F /\ fst x = R_HASHER).

Lemma simr_refl : forall T F (x : res * T), simr F x x.
Proof. left. reflexivity. Qed.

Lemma update_cases : forall F s h l,
  update F s h l = (R_OK, h ++ l) \/ (call_failed F /\ fst (update F s h l) = R_HASHER).
Proof.
  intros. unfold update. destruct (f_update F s h l) eqn:E; [right|left; reflexivity].
  split; [eapply cf_update; exact E|reflexivity].
Qed.
Lemma update_written_cases : forall F s h b l, written b = Some l ->
  update_written F s h (B_ok b tt) = (R_OK, (h ++ l, b)) \/
  (call_failed F /\ fst (update_written F s h (B_ok b tt)) = R_HASHER).
Proof.
  intros F s h b l H. unfold update_written. rewrite H. destruct (update_cases F s h l) as [->|[Hf Hr]]; [left; reflexivity|].
  right. destruct (update F s h l) as [r g]. cbn in *. auto.
Qed.
Lemma go_hasher : forall T U (x : res * T) err (k : T -> res * U), fst x = R_HASHER ->
  (forall t, fst (err R_HASHER t) = R_HASHER) -> fst (go x err k) = R_HASHER.
Proof. intros T U [r t] err k H He. cbn in H. subst. cbn. apply He. Qed.
Lemma go_ok : forall T U (t : T) err (k : T -> res * U), go (R_OK, t) err k = k t.
Proof. reflexivity. Qed.

Section LowTxProofs.
  Variable F : faults.
  Hypothesis HF : stack_ok F.

  (** Use a call that either succeeds or ends everything with HASHER. *)
  Ltac use H := destruct H as [->|[? ?]]; [rewrite ?go_ok|right; split; [assumption|];
    repeat first [assumption | apply go_hasher; [|intros; reflexivity]]].

  Lemma low_table_ids_sim : forall ids h, simr F (low_table_ids F h ids) (R_OK, h ++ concat ids).
  Proof.
    induction ids as [|i t IH]; intro h; cbn [low_table_ids concat].
    - rewrite app_nil_r. apply simr_refl.
    - use (update_cases F S_MAIN h i). rewrite app_assoc. apply IH.
  Qed.
  Lemma low_table_hash_sim : forall h d t, d < two32 ->
    simr F (low_table_hash F h d t) (R_OK, h ++ table_hash_bytes d t).
  Proof.
    intros h d t Hd. unfold low_table_hash, table_hash_bytes. destruct (array_room F 10 HF ltac:(reflexivity)) as [Hr ->].
    destruct (put_u32_ok _ d Hr Hd) as (b & -> & _ & Hw).
    use (update_written_cases F S_MAIN h b _ Hw). rewrite app_assoc. apply low_table_ids_sim.
  Qed.

  Section LowBoxProofs.
    Context {A : Type}.
    (** Callbacks that hash (only the one called when a box is finished does). *)
    Variables low plain : box_callbacks A.
    Hypothesis Htype : on_type low = on_type plain.
    Hypothesis Htoken : on_token low = on_token plain.
    Hypothesis Hfin : match on_finished low, on_finished plain with
                      | None, None => True
                      | Some f, Some g => forall t a, simr F (f t a) (g t a)
                      | _, _ => False
                      end.
    Implicit Types s : bs A.

    Lemma low_feed_sim : forall s l, low_feed F s l = (R_OK, bs_feed s l) \/
      (call_failed F /\ fst (low_feed F s l) = R_HASHER).
    Proof. intros s l. unfold low_feed. use (update_cases F S_MAIN (bs_hash s) l). left. reflexivity. Qed.
    Lemma low_feed_written_sim : forall s b l, written b = Some l ->
      low_feed_written F s (B_ok b tt) = (R_OK, (bs_feed s l, b)) \/
      (call_failed F /\ fst (low_feed_written F s (B_ok b tt)) = R_HASHER).
    Proof.
      intros s b l H. unfold low_feed_written.
      destruct (update_written_cases F S_MAIN (bs_hash s) b l H) as [->|[? ?]]; [left; reflexivity|right].
      split; [assumption|]. apply go_hasher; [assumption|]. intros [? ?]. reflexivity.
    Qed.

    Lemma box_finished_sim : forall s, simr F (box_finished low s) (box_finished plain s).
    Proof.
      intro s. unfold box_finished. destruct (on_finished low) as [f|], (on_finished plain) as [g|]; try contradiction.
      - destruct (Hfin (bx_type (bs_box s)) (bs_cb s)) as [->|[Hf Hr]]; [apply simr_refl|]. right. split; [assumption|].
        destruct (f (bx_type (bs_box s)) (bs_cb s)) as [r a]. cbn in Hr. subst r. reflexivity.
      - apply simr_refl.
    Qed.
    Lemma height_sim : forall s, bx_height (bs_box s) < two32 -> bx_tokens_count (bs_box s) < two8 ->
      low_add_height_and_token_count F s = (R_OK, add_height_and_token_count s) \/
      (call_failed F /\ fst (low_add_height_and_token_count F s) = R_HASHER).
    Proof.
      intros s Hh Ht. unfold low_add_height_and_token_count. destruct (array_room F 10 HF ltac:(reflexivity)) as [Hr ->].
      destruct (put_u32_ok _ _ Hr Hh) as (b & -> & Hb & Hw). use (low_feed_written_sim s b _ Hw).
      change (bx_tokens_count (bs_box (bs_feed s _))) with (bx_tokens_count (bs_box s)).
      destruct (put_u8_ok b 10 _ Hb ltac:(lia) Ht) as (b' & -> & Hb' & Hw').
      use (low_feed_written_sim (bs_feed s (gve_put_u32 (bx_height (bs_box s)))) b' _ Hw'). left.
      unfold bs_feed, add_height_and_token_count. cbn [bs_hash bs_box bs_cb]. rewrite <- app_assoc. reflexivity.
    Qed.
    Lemma empty_regs_sim : forall s,
      low_add_empty_registers_count F s = (R_OK, add_empty_registers_count s) \/
      (call_failed F /\ fst (low_add_empty_registers_count F s) = R_HASHER).
    Proof.
      intro s. unfold low_add_empty_registers_count. destruct (array_room F 1 HF ltac:(reflexivity)) as [Hr ->].
      destruct (put_u8_ok _ 1 0 Hr ltac:(lia) ltac:(reflexivity)) as (b & -> & Hb & Hw).
      use (low_feed_written_sim s b _ Hw). left. reflexivity.
    Qed.

    Definition box_range (s : bs A) : Prop :=
      bx_height (bs_box s) < two32 /\ bx_tokens_count (bs_box s) < two8.

    Lemma tree_tail_sim : forall s, box_range s -> simr F (low_ergo_tree_added_tail F low s) (ergo_tree_added_tail plain s).
    Proof.
      intros s [Hh Ht]. unfold low_ergo_tree_added_tail, ergo_tree_added_tail. use (height_sim s Hh Ht). cbv zeta.
      destruct (_ =? 0); [|apply simr_refl]. destruct (_ =? 0); [|apply simr_refl].
      use (empty_regs_sim (bs_with_state (add_height_and_token_count s) BX_TOKENS_ADDED)). apply box_finished_sim.
    Qed.
    Lemma tree_added_sim : forall s, box_range s -> simr F (low_ergo_tree_added F low s) (ergo_tree_added plain s).
    Proof.
      intros s Hs. unfold low_ergo_tree_added, ergo_tree_added. rewrite Htype. destruct (on_type plain) as [f|]; [|apply tree_tail_sim; assumption].
      destruct (f _ _ _) as [r a]. destruct (res_pass r); [|apply simr_refl]. apply tree_tail_sim. exact Hs.
    Qed.

    Lemma box_init_sim : forall value tree height tokens regs h (a : A), value < two64 ->
      simr F (low_box_init F value tree height tokens regs h a) (box_init value tree height tokens regs h a).
    Proof.
      intros. unfold low_box_init, box_init. cbv zeta. destruct (_ <? _); [apply simr_refl|].
      destruct (_ <? _); [apply simr_refl|]. destruct (_ <? _); [apply simr_refl|].
      destruct (array_room F 10 HF ltac:(reflexivity)) as [Hr ->]. destruct (put_u64_ok _ value Hr H) as (b & -> & Hb & Hw).
      use (low_feed_written_sim (mk_bs box_zero h a) b _ Hw). apply simr_refl.
    Qed.

    Lemma box_add_tree_sim : forall s chunk, box_range s ->
      simr F (low_box_add_tree F low s chunk) (box_add_tree plain s chunk).
    Proof.
      intros s chunk Hs. unfold low_box_add_tree, box_add_tree. destruct (bx_state (bs_box s)); try apply simr_refl. cbv zeta.
      destruct (_ <? _); [apply simr_refl|]. destruct (_ && _); [apply simr_refl|].
      use (low_feed_sim s chunk). cbv zeta. destruct (_ =? 0); [|apply simr_refl]. apply tree_added_sim. exact Hs.
    Qed.
    Lemma box_add_fee_sim : forall s m, box_range s ->
      simr F (low_box_add_miners_fee_tree F low s m) (box_add_miners_fee_tree plain s m).
    Proof.
      intros s m Hs. unfold low_box_add_miners_fee_tree, box_add_miners_fee_tree.
      destruct (bx_state (bs_box s)); try apply simr_refl. use (low_feed_sim s (ergo_tree_miners_fee_tree m)).
      apply tree_added_sim. exact Hs.
    Qed.

    Lemma p2pk_written : forall raw, (33 <= length raw)%nat -> low_generate_p2pk F raw = Some (ergo_tree_generate_p2pk raw).
    Proof.
      intros raw Hl. unfold low_generate_p2pk. pose proof (array_room F 36 HF ltac:(reflexivity)) as [[Hv _] He].
      assert (Hx : length (firstn 32 (skipn 1 raw)) = 32%nat) by (rewrite firstn_length, skipn_length; lia).
      set (x := firstn 32 (skipn 1 raw)) in *. set (y := if _ =? 0 then 2 else 3).
      assert (Hy : y < 256) by (subst y; destruct (_ =? 0); reflexivity).
      pose proof (write_bytes_cases _ P2PK_PREFIX Hv ltac:(vm_compute; reflexivity)) as W.
      change (blen P2PK_PREFIX <=? _) with true in W. cbv iota in W.
      destruct W as (b1 & E1 & V1 & O1 & P1 & C1 & M1 & U1 & _). rewrite E1. cbn [seek_done].
      change (rb_off (array_buffer F 36)) with 0 in O1. change (rb_wpos (array_buffer F 36) + blen P2PK_PREFIX) with 3 in P1.
      change (rb_cap (array_buffer F 36)) with 36 in C1. change (unread (array_buffer F 36)) with (@nil N) in U1.
      unfold rw_buffer_write_int. cbn [be_bytes]. change ([] ++ [y mod 256]) with [y mod 256]. rewrite (N.mod_small _ _ Hy).
      pose proof (write_bytes_cases b1 [y] V1 ltac:(vm_compute; reflexivity)) as W. rewrite P1, C1 in W.
      change (blen [y]) with 1 in W. change (1 <=? 36 - 3) with true in W. cbv iota in W.
      destruct W as (b2 & E2 & V2 & O2 & P2 & C2 & M2 & U2 & _). rewrite E2. cbn [seek_done].
      pose proof (write_bytes_cases b2 x V2) as W. unfold blen in W. rewrite Hx, P2, C2 in W. specialize (W ltac:(reflexivity)).
      change (N.of_nat 32 <=? 36 - (3 + 1)) with true in W. cbv iota in W.
      destruct W as (b3 & E3 & V3 & O3 & P3 & C3 & M3 & U3 & _). rewrite E3. cbn [seek_done]. f_equal.
      assert (Hm : length (rb_mem b3) = 36%nat).
      { rewrite M3, M2, M1. unfold array_buffer, rw_buffer_init. cbn [rb_mem]. pose proof (HF 36) as L. unfold blen in L. lia. }
      assert (Hu : unread b3 = rb_mem b3).
      { unfold unread. rewrite O3, O2, O1, P3. change (N.to_nat (3 + 1 + N.of_nat 32 - 0)) with 36%nat.
        change (N.to_nat 0) with O. rewrite firstn_all2; [reflexivity|]. rewrite skipn_length. lia. }
      rewrite <- Hu, U3, U2, U1. unfold ergo_tree_generate_p2pk, compress. fold x. fold y. rewrite <- !app_assoc. reflexivity.
    Qed.
    Lemma box_add_change_sim : forall s raw, box_range s -> (33 <= length raw)%nat ->
      simr F (low_box_add_change_tree F low s raw) (box_add_change_tree plain s raw).
    Proof.
      intros s raw Hs Hl. unfold low_box_add_change_tree, box_add_change_tree.
      destruct (bx_state (bs_box s)); try apply simr_refl. rewrite (p2pk_written raw Hl).
      use (low_feed_sim s (ergo_tree_generate_p2pk raw)). apply tree_added_sim. exact Hs.
    Qed.

    (** ** Tokens *)
    Definition tok_sim (x : res * (bs A * (bytes * rwb))) (y : res * bs A * bytes) : Prop :=
      (call_failed F /\ fst x = R_HASHER) \/
      exists r s rest rest' b, x = (r, (s, (rest, b))) /\ y = (r, s, rest') /\
        (r = R_OK -> rest' = rest /\ room 10 b /\ bytes_ok rest = true).

    Lemma read_be_range : forall n l v r, read_be n l = Some (v, r) -> bytes_ok l = true ->
      v < 256 ^ N.of_nat n /\ bytes_ok r = true.
    Proof.
      intros n l v r H Hb. unfold read_be, read_bytes in H. destruct (Nat.leb_spec n (length l)) as [L|L]; [|discriminate].
      assert (v = be_value (firstn n l) /\ r = skipn n l) as [-> ->] by (split; congruence).
      split; [|apply bytes_ok_skipn; assumption].
      pose proof (be_value_bound (firstn n l) (bytes_ok_firstn n l Hb)) as B. unfold blen in B.
      rewrite firstn_length, Nat.min_l in B by assumption. exact B.
    Qed.
    Lemma read_bytes_rest_ok : forall n l v r, read_bytes n l = Some (v, r) -> bytes_ok l = true -> bytes_ok r = true.
    Proof.
      intros n l v r H Hb. unfold read_bytes in H. destruct (Nat.leb_spec n (length l)) as [L|L]; [|discriminate].
      replace r with (skipn n l) by congruence. apply bytes_ok_skipn. assumption.
    Qed.

    Lemma token_value_sim : forall b s id input, room 10 b -> bytes_ok input = true ->
      tok_sim (low_box_token_value F low b s id input) (box_token_value plain s id input).
    Proof.
      intros b s id input Hb Hi. unfold low_box_token_value, box_token_value.
      destruct (read_u64 input) as [[v rest]|] eqn:R; cycle 1.
      { right. unfold box_res_error. do 5 eexists. split; [reflexivity|]. split; [reflexivity|]. discriminate. }
      destruct (read_be_range 8 _ _ _ R Hi) as [Hv Hrest]. change (256 ^ N.of_nat 8) with two64 in Hv.
      destruct (put_u64_ok b v Hb Hv) as (b' & -> & Hb' & Hw).
      destruct (low_feed_written_sim s b' _ Hw) as [->|[? ?]]; cycle 1.
      { left. split; [assumption|]. apply go_hasher; [assumption|reflexivity]. }
      rewrite go_ok. cbv zeta. rewrite Htoken. destruct (on_token plain) as [f|].
      - destruct (f _ _ _ _) as [r a]. destruct (res_pass r) eqn:P.
        + right. do 5 eexists. split; [reflexivity|]. split; [reflexivity|]. auto.
        + right. unfold box_res_error. do 5 eexists. split; [reflexivity|]. split; [reflexivity|]. intros ->. discriminate P.
      - right. do 5 eexists. split; [reflexivity|]. split; [reflexivity|]. auto.
    Qed.
    Lemma one_token_sim : forall table b s input, room 10 b -> bytes_ok input = true ->
      tok_sim (low_box_one_token F low table b s input) (box_one_token plain table s input).
    Proof.
      intros table b s input Hb Hi. unfold low_box_one_token, box_one_token, box_res_error. cbv zeta.
      destruct (_ =? 0). { right. do 5 eexists. split; [reflexivity|]. split; [reflexivity|]. discriminate. }
      destruct table as [[d ids]|].
      - destruct (read_u32 input) as [[v rest]|] eqn:R; cycle 1.
        { right. do 5 eexists. split; [reflexivity|]. split; [reflexivity|]. discriminate. }
        destruct (d <=? v). { right. do 5 eexists. split; [reflexivity|]. split; [reflexivity|]. discriminate. }
        destruct (read_be_range 4 _ _ _ R Hi) as [Hv Hrest]. change (256 ^ N.of_nat 4) with two32 in Hv.
        destruct (put_u32_ok b v Hb Hv) as (b' & -> & Hb' & Hw).
        destruct (low_feed_written_sim s b' _ Hw) as [->|[? ?]]; cycle 1.
        { left. split; [assumption|]. apply go_hasher; [assumption|reflexivity]. }
        rewrite go_ok. apply token_value_sim; assumption.
      - destruct (read_bytes ERGO_ID_LEN input) as [[v rest]|] eqn:R; cycle 1.
        { right. do 5 eexists. split; [reflexivity|]. split; [reflexivity|]. discriminate. }
        destruct (low_feed_sim s v) as [->|[? ?]]; cycle 1.
        { left. split; [assumption|]. apply go_hasher; [assumption|reflexivity]. }
        rewrite go_ok. apply token_value_sim; [assumption|]. eapply read_bytes_rest_ok; eassumption.
    Qed.
    Lemma tokens_loop_sim : forall table fuel b s input, room 10 b -> bytes_ok input = true ->
      simr F (low_box_tokens_loop F low fuel table b s input) (box_tokens_loop plain fuel table s input).
    Proof.
      intros table. induction fuel as [|fuel IH]; intros b s input Hb Hi; cbn [low_box_tokens_loop box_tokens_loop]; [apply simr_refl|].
      destruct input as [|x t] eqn:Ei; [apply simr_refl|]. rewrite <- Ei in *.
      destruct (one_token_sim table b s input Hb Hi) as [[? ?]|(r & s' & rest & rest' & b' & -> & -> & Hr)].
      { right. split; [assumption|]. apply go_hasher; [assumption|reflexivity]. }
      destruct r; try apply simr_refl. destruct (Hr eq_refl) as (-> & Hb' & Ho). rewrite go_ok. apply IH; assumption.
    Qed.
    Lemma box_add_tokens_sim : forall s input table, bytes_ok input = true ->
      simr F (low_box_add_tokens F low s input table) (box_add_tokens plain s input table).
    Proof.
      intros s input table Hi. unfold low_box_add_tokens, box_add_tokens. destruct (bx_state (bs_box s)); try apply simr_refl.
      destruct (array_room F 10 HF ltac:(reflexivity)) as [Hr _].
      destruct (tokens_loop_sim table (S (length input)) _ s input Hr Hi) as [->|[? ?]]; cycle 1.
      { right. split; [assumption|]. apply go_hasher; [assumption|reflexivity]. }
      destruct (box_tokens_loop _ _ _ _ _) as [[] s']; try apply simr_refl. rewrite go_ok.
      unfold low_box_tokens_done, box_tokens_done. destruct (_ =? 0); [|apply simr_refl]. destruct (_ =? 0); [|apply simr_refl].
      use (empty_regs_sim s'). apply box_finished_sim.
    Qed.
    Lemma box_add_registers_sim : forall s chunk,
      simr F (low_box_add_registers F low s chunk) (box_add_registers plain s chunk).
    Proof.
      intros s chunk. unfold low_box_add_registers, box_add_registers. destruct (bx_state (bs_box s)); try apply simr_refl. cbv zeta.
      destruct (_ <? _); [apply simr_refl|]. use (low_feed_sim s chunk). cbv zeta.
      destruct (_ =? 0); [|apply simr_refl]. apply box_finished_sim.
    Qed.
    Lemma box_id_hash_sim : forall blake s tx_id index, index < two16 ->
      (call_failed F /\ fst (low_box_id_hash F blake s tx_id index) = R_HASHER) \/
      exists r s' id, low_box_id_hash F blake s tx_id index = (r, (s', id)) /\ box_id_hash blake s tx_id index = (r, s', id).
    Proof.
      intros blake s tx_id index Hi. unfold low_box_id_hash, box_id_hash, box_res_error. cbv zeta.
      destruct (bx_state (bs_box s)); try (right; do 3 eexists; split; reflexivity).
      destruct (low_feed_sim s tx_id) as [->|[? ?]]; cycle 1.
      { left. split; [assumption|]. apply go_hasher; [assumption|reflexivity]. }
      rewrite go_ok. destruct (array_room F 4 HF ltac:(reflexivity)) as [Hr ->]. destruct (put_u16_ok _ _ Hr Hi) as (b & -> & _ & Hw).
      destruct (low_feed_written_sim (bs_feed s tx_id) b _ Hw) as [->|[? ?]]; cycle 1.
      { left. split; [assumption|]. apply go_hasher; [assumption|reflexivity]. }
      rewrite go_ok. destruct (f_final F S_MAIN _) eqn:E.
      { left. split; [eapply cf_final; exact E|reflexivity]. }
      right. unfold bs_feed, bs_with_state. cbn [bs_hash bs_box bs_cb]. rewrite <- app_assoc. do 3 eexists. split; reflexivity.
    Qed.
  End LowBoxProofs.

  (** * Inputs *)
  Section LowInputProofs.
    Context {A : Type}.
    Variable cb : option (bytes -> bytes -> N -> A -> res * A).

    Lemma low_in_feed_sim : forall (s : ins A) l, low_in_feed F s l = (R_OK, mk_ins (is_in s) (is_hash s ++ l) (is_cb s)) \/
      (call_failed F /\ fst (low_in_feed F s l) = R_HASHER).
    Proof. intros s l. unfold low_in_feed. use (update_cases F S_MAIN (is_hash s) l). left. reflexivity. Qed.
    Lemma frame_done_sim : forall (s : ins A) id, simr F (low_input_frame_done F s id) (input_frame_done s id).
    Proof.
      intros s id. unfold low_input_frame_done, input_frame_done. cbv zeta. destruct (_ =? _); [|apply simr_refl].
      match goal with |- context [low_in_feed F ?s id] => use (low_in_feed_sim s id) end.
      match goal with |- context [low_in_feed F ?s [0]] => use (low_in_feed_sim s [0]) end.
      destruct (_ =? 0).
      - match goal with |- context [low_in_feed F ?s [0]] => use (low_in_feed_sim s [0]) end.
        left. unfold ins_with_state. cbn [is_in is_hash is_cb]. rewrite <- !app_assoc. reflexivity.
      - left. unfold ins_with_state. cbn [is_in is_hash is_cb]. rewrite <- !app_assoc. reflexivity.
    Qed.
    Lemma input_add_tokens_sim : forall (s : ins A) id i tokens,
      simr F (low_input_add_tokens F cb s id i tokens) (input_add_tokens cb s id i tokens).
    Proof.
      intros s id i tokens. unfold low_input_add_tokens, input_add_tokens. destruct (in_state (is_in s)); try apply simr_refl.
      repeat (destruct (negb _) || destruct (_ <=? _); [apply simr_refl|]).
      destruct (input_tokens_loop _ _ _ _) as [[] s']; try apply simr_refl. apply frame_done_sim.
    Qed.
    Lemma input_ext_sim : forall (s : ins A) chunk,
      simr F (low_input_add_context_extension F s chunk) (input_add_context_extension s chunk).
    Proof.
      intros s chunk. unfold low_input_add_context_extension, input_add_context_extension.
      destruct (in_state (is_in s)) eqn:Es; try apply simr_refl. cbv zeta. destruct (_ <? _); [apply simr_refl|].
      use (low_in_feed_sim s chunk). cbv zeta. apply simr_refl.
    Qed.
  End LowInputProofs.

  (** * The transaction *)
  Section LowFullProofs.
    Context {A : Type}.
    Variable tget : A -> token_table.
    Variable tset : token_table -> A -> A.
    Variables low plain : box_callbacks A.
    Variable icb : bytes -> bytes -> N -> A -> res * A.
    Hypothesis Htype : on_type low = on_type plain.
    Hypothesis Htoken : on_token low = on_token plain.
    Hypothesis Hfin : match on_finished low, on_finished plain with
                      | None, None => True
                      | Some f, Some g => forall t a, simr F (f t a) (g t a)
                      | _, _ => False
                      end.
    Implicit Types s : fs A.

    Lemma hash_u16_sim : forall s v, v < two16 -> low_hash_u16 F s v = (R_OK, fs_feed s (gve_put_u16 v)) \/
      (call_failed F /\ fst (low_hash_u16 F s v) = R_HASHER).
    Proof.
      intros s v Hv. unfold low_hash_u16. destruct (array_room F 4 HF ltac:(reflexivity)) as [Hr ->].
      destruct (put_u16_ok _ _ Hr Hv) as (b & -> & _ & Hw). use (update_written_cases F S_MAIN (fs_hash s) b _ Hw). left. reflexivity.
    Qed.

    Definition full_range (f : full) : Prop :=
      fl_inputs_count f < two16 /\ fl_data_inputs_count f < two16 /\ fl_outputs_count f < two16 /\ fl_distinct f < two32 /\
      match fl_union f with
      | FU_BOX b _ => bx_height b < two32 /\ bx_tokens_count b < two8
      | _ => True
      end.

    Lemma data_finished_sim : forall s, full_range (fs_full s) ->
      simr F (low_data_inputs_finished F tget s) (data_inputs_finished tget s).
    Proof.
      intros s (_ & _ & Ho & Hd & _). unfold low_data_inputs_finished, data_inputs_finished.
      use (low_table_hash_sim (fs_hash s) (fl_distinct (fs_full s)) (tget (fs_cb s)) Hd).
      use (hash_u16_sim (fs_with_hash s (fs_hash s ++ table_hash_bytes (fl_distinct (fs_full s)) (tget (fs_cb s)))) _ Ho).
      apply simr_refl.
    Qed.
    Lemma input_finished_sim : forall s, full_range (fs_full s) ->
      simr F (low_input_finished F tget s) (input_finished tget s).
    Proof.
      intros s Hs. pose proof Hs as (Hi & Hd & Ho & Ht & _). unfold low_input_finished, input_finished. cbv zeta.
      destruct (_ =? 0); [|apply simr_refl].
      match goal with |- context [low_hash_u16 F ?x ?v] => use (hash_u16_sim x v Hd) end. cbv zeta.
      destruct (_ =? 0); [|apply simr_refl]. apply data_finished_sim.
      pose proof Hs as (_ & _ & _ & _ & Hu). destruct s as [[st i d o t u] h a]. cbn in *.
      unfold full_range. cbn [full_set_state full_set_inputs fl_inputs_count fl_data_inputs_count fl_outputs_count fl_distinct fl_union].
      split; [apply N.mod_lt; discriminate|]. auto.
    Qed.
    Lemma full_init_sim : forall i d o t h (a : A), i < two16 ->
      simr F (low_full_init F tget tset i d o t h a) (full_init tget tset i d o t h a).
    Proof.
      intros i d o t h a Hi. unfold low_full_init, full_init. cbv zeta. destruct (_ =? 0); [apply simr_refl|].
      destruct (_ =? 0); [apply simr_refl|]. use (hash_u16_sim (mk_fs full_zero h a) i Hi). apply simr_refl.
    Qed.

    Lemma on_input_sim : forall s (c c' : option (bytes -> bytes -> N -> A -> res * A) -> ins A -> res * ins A) k k',
      (forall cb i, simr F (c cb i) (c' cb i)) ->
      (forall s, full_range (fs_full s) -> simr F (k s) (k' s)) -> full_range (fs_full s) ->
      simr F (on_input icb s c k) (on_input icb s c' k').
    Proof.
      intros s c c' k k' Hc Hk Hs. unfold on_input. destruct (fl_union (fs_full s)) as [|i set|b set] eqn:U; try apply simr_refl.
      destruct (Hc (if set then Some icb else None) (mk_ins i (fs_hash s) (fs_cb s))) as [->|[Hf Hr]].
      - destruct (c' _ _) as [[] x]; try apply simr_refl. apply Hk. destruct Hs as (H1 & H2 & H3 & H4 & _). repeat split; assumption.
      - destruct (c _ _) as [r x]. cbn in Hr. subst r. right. split; [assumption|reflexivity].
    Qed.
    Lemma full_input_tokens_sim : forall s id i tokens, full_range (fs_full s) ->
      simr F (low_full_add_input_tokens F tget icb s id i tokens) (full_add_input_tokens tget icb s id i tokens).
    Proof.
      intros s id i tokens Hs. unfold low_full_add_input_tokens, full_add_input_tokens.
      destruct (fl_state (fs_full s)); try apply simr_refl. apply on_input_sim; [intros; apply input_add_tokens_sim| |assumption].
      intros x Hx. destruct (fl_union (fs_full x)) as [|c set|b set]; try apply simr_refl. destruct (in_state c); try apply simr_refl.
      apply input_finished_sim. assumption.
    Qed.
    Lemma full_input_ext_sim : forall s chunk, full_range (fs_full s) ->
      simr F (low_full_add_input_context_extension F tget icb s chunk) (full_add_input_context_extension tget icb s chunk).
    Proof.
      intros s chunk Hs. unfold low_full_add_input_context_extension, full_add_input_context_extension.
      destruct (fl_state (fs_full s)); try apply simr_refl. apply on_input_sim; [intros; apply input_ext_sim| |assumption].
      apply input_finished_sim.
    Qed.
    Lemma data_loop_sim : forall fuel s inputs, full_range (fs_full s) ->
      simr F (low_data_inputs_loop F fuel s inputs) (data_inputs_loop fuel s inputs) /\
      full_range (fs_full (snd (data_inputs_loop fuel s inputs))).
    Proof.
      induction fuel as [|fuel IH]; intros s inputs Hs; cbn [low_data_inputs_loop data_inputs_loop].
      { split; [apply simr_refl|exact Hs]. }
      destruct inputs as [|x t] eqn:Ei; [split; [apply simr_refl|exact Hs]|]. rewrite <- Ei.
      assert (He : forall r, full_range (fs_full (snd (full_res_error s r)))) by (intro r; exact Hs).
      destruct (_ =? 0); [split; [apply simr_refl|apply He]|].
      destruct (read_bytes _ _) as [[id rest]|]; [|split; [apply simr_refl|apply He]]. cbv zeta.
      match goal with |- _ /\ full_range (fs_full (snd (data_inputs_loop _ ?z _))) => assert (Hz : full_range (fs_full z)) end.
      { destruct Hs as (H1 & H2 & H3 & H4 & H5). unfold full_range. cbn. repeat split; try assumption. lia. }
      specialize (IH _ rest Hz) as [I1 I2]. split; [|exact I2]. use (update_cases F S_MAIN (fs_hash s) id). exact I1.
    Qed.
    Lemma full_data_sim : forall s inputs, full_range (fs_full s) ->
      simr F (low_full_add_data_inputs F tget s inputs) (full_add_data_inputs tget s inputs).
    Proof.
      intros s inputs Hs. unfold low_full_add_data_inputs, full_add_data_inputs.
      destruct (fl_state (fs_full s)); try apply simr_refl.
      destruct (data_loop_sim (S (length inputs)) s inputs Hs) as [[->|[? ?]] Hx]; cycle 1.
      { right. split; [assumption|]. apply go_hasher; [assumption|reflexivity]. }
      destruct (data_inputs_loop _ _ _) as [[] x]; try apply simr_refl. rewrite go_ok.
      destruct (_ =? 0); [|apply simr_refl]. apply data_finished_sim. exact Hx.
    Qed.
    Lemma full_box_sim : forall s value tree height tokens regs, value < two64 ->
      simr F (low_full_add_box F s value tree height tokens regs) (full_add_box s value tree height tokens regs).
    Proof.
      intros s value tree height tokens regs Hv. unfold low_full_add_box, full_add_box.
      destruct (fl_state (fs_full s)); try apply simr_refl. destruct (_ =? 0); [apply simr_refl|].
      destruct (box_init_sim value tree height tokens regs (fs_hash s) (fs_cb s) Hv) as [->|[? Hr]]; [apply simr_refl|].
      destruct (low_box_init _ _ _ _ _ _ _ _) as [r x]. cbn in Hr. subst r. right. split; [assumption|reflexivity].
    Qed.

    Definition cbs_sim (l p : box_callbacks A) : Prop :=
      on_type l = on_type p /\ on_token l = on_token p /\
      match on_finished l, on_finished p with
      | None, None => True
      | Some f, Some g => forall t a, simr F (f t a) (g t a)
      | _, _ => False
      end.
    Lemma set_cbs_sim : forall set : bool, cbs_sim (if set then low else no_box_callbacks) (if set then plain else no_box_callbacks).
    Proof. intros []; repeat split; try assumption; exact I. Qed.

    Lemma on_box_sim : forall s (c c' : box_callbacks A -> bs A -> res * bs A) more,
      (forall l p x, cbs_sim l p -> box_range x -> simr F (c l x) (c' p x)) -> full_range (fs_full s) ->
      simr F (on_box low s c more) (on_box plain s c' more).
    Proof.
      intros s c c' more Hc Hs. unfold on_box. destruct (fl_union (fs_full s)) as [|i set|b set] eqn:U; try apply simr_refl.
      destruct (Hc _ _ (mk_bs b (fs_hash s) (fs_cb s)) (set_cbs_sim set)) as [->|[Hf Hr]].
      - destruct Hs as (_ & _ & _ & _ & Hu). rewrite U in Hu. exact Hu.
      - apply simr_refl.
      - destruct (c _ _) as [r x]. cbn in Hr. subst r. right. split; [assumption|reflexivity].
    Qed.

    Lemma full_tree_sim : forall s chunk, full_range (fs_full s) ->
      simr F (low_full_add_box_ergo_tree F low s chunk) (full_add_box_ergo_tree plain s chunk).
    Proof.
      intros s chunk Hs. unfold low_full_add_box_ergo_tree, full_add_box_ergo_tree. destruct (fl_state (fs_full s)); try apply simr_refl.
      apply on_box_sim; [|assumption]. intros l p x (C1 & C2 & C3) Hx. apply box_add_tree_sim; assumption.
    Qed.
    Lemma full_change_sim : forall s raw, full_range (fs_full s) -> (33 <= length raw)%nat ->
      simr F (low_full_add_box_change_tree F low s raw) (full_add_box_change_tree plain s raw).
    Proof.
      intros s raw Hs Hl. unfold low_full_add_box_change_tree, full_add_box_change_tree. destruct (fl_state (fs_full s)); try apply simr_refl.
      apply on_box_sim; [|assumption]. intros l p x (C1 & C2 & C3) Hx. apply box_add_change_sim; assumption.
    Qed.
    Lemma full_fee_sim : forall s m, full_range (fs_full s) ->
      simr F (low_full_add_box_miners_fee_tree F low s m) (full_add_box_miners_fee_tree plain s m).
    Proof.
      intros s m Hs. unfold low_full_add_box_miners_fee_tree, full_add_box_miners_fee_tree. destruct (fl_state (fs_full s)); try apply simr_refl.
      apply on_box_sim; [|assumption]. intros l p x (C1 & C2 & C3) Hx. apply box_add_fee_sim; assumption.
    Qed.
    Lemma full_box_tokens_sim : forall s tokens, full_range (fs_full s) -> bytes_ok tokens = true ->
      simr F (low_full_add_box_tokens F tget low s tokens) (full_add_box_tokens tget plain s tokens).
    Proof.
      intros s tokens Hs Hb. unfold low_full_add_box_tokens, full_add_box_tokens. destruct (fl_state (fs_full s)); try apply simr_refl.
      apply on_box_sim; [|assumption]. intros l p x (C1 & C2 & C3) Hx. apply box_add_tokens_sim; assumption.
    Qed.
    Lemma full_box_registers_sim : forall s chunk,
      simr F (low_full_add_box_registers F low s chunk) (full_add_box_registers plain s chunk).
    Proof.
      intros s chunk. unfold low_full_add_box_registers, full_add_box_registers. destruct (fl_state (fs_full s)); try apply simr_refl.
      destruct (fl_union (fs_full s)) as [|i set|b set] eqn:U; try apply simr_refl.
      destruct (set_cbs_sim set) as (C1 & C2 & C3).
      destruct (box_add_registers_sim _ _ C3 (mk_bs b (fs_hash s) (fs_cb s)) chunk) as [->|[Hf Hr]]; [apply simr_refl|].
      destruct (low_box_add_registers _ _ _ _) as [r x]. cbn in Hr. subst r. right. split; [assumption|reflexivity].
    Qed.
  End LowFullProofs.
End LowTxProofs.
