(** The box serializer against a description of what it has been given. *)
From Verif Require Import Lib Gve CodecProofs SpecVlq SpecTree ErgoTree TxTable TxBox SpecTx.

#[local] Arguments N.eqb : simpl never.
#[local] Arguments N.ltb : simpl never.
#[local] Arguments N.sub : simpl never.
#[local] Arguments blen : simpl never.

(** What a box serializer has received: the declared fields, the script bytes ([g_done]:
    all of them), the encoded tokens, the registers. *)
Record gbox := mk_g {
  g_value : N; g_tree_len : N; g_height : N; g_ntok : N; g_regs_len : N;
  g_type : box_type; g_tree : bytes; g_done : bool; g_toks : list bytes; g_regs : bytes }.

Definition g_finished (g : gbox) : bool :=
  g_done g && (blen (g_toks g) =? g_ntok g) && (blen (g_regs g) =? g_regs_len g).
Definition g_box_state (g : gbox) : box_state :=
  if negb (g_done g) then BX_INITIALIZED
  else if negb (blen (g_toks g) =? g_ntok g) then BX_TREE_ADDED
  else if negb (blen (g_regs g) =? g_regs_len g) then BX_TOKENS_ADDED
  else BX_FINISHED.
Definition g_tree_left (g : gbox) : N :=
  match g_type g with BT_TREE => g_tree_len g - blen (g_tree g) | _ => g_tree_len g end.
Definition gstate (g : gbox) : box :=
  mk_box (g_box_state g) (g_value g) (g_tree_left g) (g_height g)
         (g_regs_len g - blen (g_regs g)) (g_ntok g - blen (g_toks g)) (g_type g).
Definition gbytes (g : gbox) : bytes :=
  vlq (g_value g) ++ g_tree g ++
  if g_done g then
    vlq (g_height g) ++ [g_ntok g] ++ concat (g_toks g) ++
    (if blen (g_toks g) =? g_ntok g then if g_regs_len g =? 0 then [0] else g_regs g else [])
  else [].
Record gwf (g : gbox) : Prop := mk_gwf {
  gw_value : g_value g < two64;
  gw_height : g_height g < two32;
  gw_ntok : g_ntok g <= 20;
  gw_tree_len : g_tree_len g <= 32768;
  gw_regs_len : g_regs_len g <= 32768;
  gw_tree : g_type g = BT_TREE -> blen (g_tree g) <= g_tree_len g;
  gw_type : g_done g = false -> g_type g = BT_TREE;
  gw_done : g_type g = BT_TREE -> g_done g = true -> blen (g_tree g) = g_tree_len g;
  gw_toks : blen (g_toks g) <= g_ntok g;
  gw_toks0 : g_done g = false -> g_toks g = [];
  gw_regs : blen (g_regs g) <= g_regs_len g;
  gw_regs0 : g_done g = false \/ blen (g_toks g) <> g_ntok g -> g_regs g = [] }.

Definition g_set_tree (g : gbox) (type : box_type) (t : bytes) (d : bool) : gbox :=
  mk_g (g_value g) (g_tree_len g) (g_height g) (g_ntok g) (g_regs_len g) type t d (g_toks g) (g_regs g).
Definition g_add_toks (g : gbox) (l : list bytes) : gbox :=
  mk_g (g_value g) (g_tree_len g) (g_height g) (g_ntok g) (g_regs_len g) (g_type g) (g_tree g) (g_done g)
       (g_toks g ++ l) (g_regs g).
Definition g_add_regs (g : gbox) (l : bytes) : gbox :=
  mk_g (g_value g) (g_tree_len g) (g_height g) (g_ntok g) (g_regs_len g) (g_type g) (g_tree g) (g_done g)
       (g_toks g) (g_regs g ++ l).
Definition g_init (value tree_len height ntok regs_len : N) : gbox :=
  mk_g value tree_len height ntok regs_len BT_TREE [] false [] [].

(** Effect of the callbacks on their context. *)
Definition type_cb {A} (cb : box_callbacks A) (t : box_type) (v : N) (a a' : A) : Prop :=
  match on_type cb with
  | None => a' = a
  | Some f => exists r, f t v a = (r, a') /\ res_pass r = true
  end.
Definition fin_cb {A} (cb : box_callbacks A) (fin : bool) (t : box_type) (a a' : A) : Prop :=
  if fin then match on_finished cb with
              | None => a' = a
              | Some f => exists r, f t a = (r, a') /\ res_pass r = true
              end
  else a' = a.
(** The token callback folded over the decoded entries. *)
Fixpoint token_cbs {A} (cb : box_callbacks A) (t : box_type) (l : list (bytes * N)) (a a' : A) : Prop :=
  match l with
  | [] => a' = a
  | (id, v) :: l' =>
      exists a1, match on_token cb with
                 | None => a1 = a
                 | Some f => exists r, f t id v a = (r, a1) /\ res_pass r = true
                 end /\ token_cbs cb t l' a1 a'
  end.

Lemma put_vlq64 : forall n, n < two64 -> gve_put_u64 n = vlq n.
Proof. exact gve_put_u64_vlq. Qed.
Lemma put_vlq32 : forall n, n < two32 -> gve_put_u32 n = vlq n.
Proof. intros. apply gve_put_u64_vlq. unfold two32, two64 in *. lia. Qed.
Lemma put_vlq16 : forall n, n < two16 -> gve_put_u16 n = vlq n.
Proof. intros. apply gve_put_u64_vlq. unfold two16, two64 in *. lia. Qed.

(** ** Entries *)

Lemma entries_fuel_enough : forall n f l, (0 < n)%nat -> (length l <= f)%nat ->
  entries_fuel f n l = entries_fuel (length l) n l.
Proof.
  intros n f l Hn. remember (length l) as k eqn:Hk. revert f l Hk.
  induction k as [k IH] using lt_wf_ind. intros f l Hk Hf.
  destruct l as [|x l].
  - destruct f, k; reflexivity.
  - destruct k; [discriminate|]. destruct f; [lia|]. cbn [entries_fuel]. f_equal.
    assert (L : (length (skipn n (x :: l)) <= k)%nat).
    { rewrite skipn_length. cbn [length] in *. lia. }
    rewrite (IH (length (skipn n (x :: l)))) by lia.
    symmetry. apply IH; lia.
Qed.
Lemma entries_nil : forall n, entries n [] = [].
Proof. reflexivity. Qed.
Lemma entries_app : forall n a l, (0 < n)%nat -> length a = n -> entries n (a ++ l) = a :: entries n l.
Proof.
  intros n a l Hn Ha. unfold entries. destruct a as [|x a]; [cbn in Ha; lia|].
  cbn [length app entries_fuel]. change (x :: a ++ l) with ((x :: a) ++ l).
  rewrite firstn_app, firstn_all2 by lia. replace (n - length (x :: a))%nat with 0%nat by lia.
  rewrite skipn_app, skipn_all2 by lia. replace (n - length (x :: a))%nat with 0%nat by lia.
  cbn [firstn skipn app]. rewrite app_nil_r. f_equal. apply entries_fuel_enough; [assumption|].
  rewrite app_length. lia.
Qed.
Lemma entries_concat : forall n l, (0 < n)%nat -> Forall (fun e => length e = n) l ->
  entries n (concat l) = l.
Proof.
  intros n l Hn. induction 1 as [|e l He Hl IH]; [reflexivity|].
  cbn [concat]. rewrite entries_app by assumption. rewrite IH. reflexivity.
Qed.
Lemma concat_entries : forall n l, (0 < n)%nat -> concat (entries n l) = l.
Proof.
  intros n l Hn. unfold entries. remember (length l) as k eqn:Hk.
  assert (H : (length l <= k)%nat) by lia. clear Hk. revert l H.
  induction k as [|k IH]; intros l H.
  - destruct l; [reflexivity|cbn in H; lia].
  - destruct l as [|x l]; [reflexivity|]. cbn [entries_fuel concat].
    rewrite IH; [apply firstn_skipn|]. rewrite skipn_length. cbn [length] in *. lia.
Qed.

(** The entries of a token list: 40 bytes (id, amount) without a table, 12 bytes (index,
    amount) with one. *)
Definition tok_size (table : option (N * token_table)) : nat := match table with None => 40 | Some _ => 12 end.
Definition tok_enc (table : option (N * token_table)) (e : bytes) : bytes :=
  match table with
  | None => slice 0 32 e ++ vlq (num 32 8 e)
  | Some _ => vlq (num 0 4 e) ++ vlq (num 4 8 e)
  end.
Definition tok_entry (table : option (N * token_table)) (e : bytes) : bytes * N :=
  match table with
  | None => (slice 0 32 e, num 32 8 e)
  | Some (_, ids) => (nth (N.to_nat (num 0 4 e)) ids zero_id, num 4 8 e)
  end.
Definition tok_in (table : option (N * token_table)) (e : bytes) : Prop :=
  match table with None => True | Some (distinct, _) => num 0 4 e < distinct end.

Lemma tok_size_pos : forall table, (0 < tok_size table)%nat.
Proof. intros [p|]; cbn; lia. Qed.

Section G.
  Context {A : Type}.
  Variable cb : box_callbacks A.
  Implicit Types (s : bs A) (g : gbox) (h : bytes) (a : A).

  Definition gs (g : gbox) (h : bytes) (a : A) : bs A := mk_bs (gstate g) (h ++ gbytes g) a.

  Lemma g_init_ok : forall value tree_len height ntok regs_len h a r s',
    value < two64 -> height < two32 ->
    box_init value tree_len height ntok regs_len h a = (r, s') -> res_pass r = true ->
    s' = gs (g_init value tree_len height ntok regs_len) h a /\
    gwf (g_init value tree_len height ntok regs_len) /\ r = R_OK.
  Proof.
    intros value tree_len height ntok regs_len h a r s' Hv Hh H Hr. unfold box_init in H.
    destruct (TOKEN_MAX_COUNT <? ntok) eqn:E1; [inv H; discriminate|].
    destruct (MAX_TX_DATA_PART_LEN <? tree_len) eqn:E2; [inv H; discriminate|].
    destruct (MAX_TX_DATA_PART_LEN <? regs_len) eqn:E3; [inv H; discriminate|].
    inv H. unfold TOKEN_MAX_COUNT, MAX_TX_DATA_PART_LEN in *.
    split; [|split; [|reflexivity]].
    - unfold gs, gstate, gbytes, g_init, g_box_state, g_tree_left. cbn.
      rewrite put_vlq64 by assumption. rewrite !N.sub_0_r, app_nil_r. reflexivity.
    - constructor; unfold g_init; cbn; rewrite ?blen_nil; intros; try assumption; try discriminate; try reflexivity; lia.
  Qed.

  (** The end of a script: height, token count, and the empty registers if the box is
      complete already. *)
  Lemma g_tree_added : forall g h a r s' type t,
    gwf g -> g_done g = false -> (type = BT_TREE -> blen t = g_tree_len g) ->
    ergo_tree_added cb
      (mk_bs (mk_box BX_INITIALIZED (g_value g) (match type with BT_TREE => 0 | _ => g_tree_len g end)
                     (g_height g) (g_regs_len g) (g_ntok g) type)
             (h ++ vlq (g_value g) ++ t) a) = (r, s') -> res_pass r = true ->
    let g' := g_set_tree g type t true in
    r = R_OK /\ gwf g' /\ exists a1, type_cb cb type (g_value g) a a1 /\
      fin_cb cb (g_finished g') type a1 (bs_cb s') /\ s' = gs g' h (bs_cb s').
  Proof.
    intros g h a r s' type t W Hd Ht H Hr g'.
    assert (Ek : g_toks g = []) by (apply W; assumption).
    assert (Er : g_regs g = []) by (apply W; left; assumption).
    assert (W' : gwf g').
    { destruct W. constructor; unfold g', g_set_tree; cbn; try assumption; try lia.
      all: intros; first [exact Ek | exact Er | specialize (Ht ltac:(assumption)); lia]. }
    assert (Hh : g_height g < two32) by apply W.
    assert (Hfin : g_finished g' = (g_ntok g =? 0) && (g_regs_len g =? 0)).
    { unfold g_finished, g', g_set_tree. cbn. rewrite Ek, Er. rewrite !blen_nil, !(N.eqb_sym 0). reflexivity. }
    assert (Gst : gstate g' = mk_box (if g_ntok g =? 0 then if g_regs_len g =? 0 then BX_FINISHED
                                      else BX_TOKENS_ADDED else BX_TREE_ADDED) (g_value g)
                     (match type with BT_TREE => 0 | _ => g_tree_len g end)
                     (g_height g) (g_regs_len g) (g_ntok g) type).
    { unfold gstate, g_box_state, g_tree_left, g', g_set_tree. cbn.
      rewrite Ek, Er, !blen_nil, !N.sub_0_r, !(N.eqb_sym 0). f_equal.
      - destruct (g_ntok g =? 0); cbn; try reflexivity. destruct (g_regs_len g =? 0); reflexivity.
      - destruct type; try reflexivity. rewrite Ht by reflexivity. lia. }
    assert (Gby : gbytes g' = vlq (g_value g) ++ t ++ vlq (g_height g) ++ [g_ntok g] ++
                  (if g_ntok g =? 0 then if g_regs_len g =? 0 then [0] else [] else [])).
    { unfold gbytes, g', g_set_tree. cbn. rewrite Ek, Er, !blen_nil, !(N.eqb_sym 0). reflexivity. }
    assert (Tail : forall a1, ergo_tree_added_tail cb
      (mk_bs (mk_box BX_INITIALIZED (g_value g) (match type with BT_TREE => 0 | _ => g_tree_len g end)
                     (g_height g) (g_regs_len g) (g_ntok g) type)
             (h ++ vlq (g_value g) ++ t) a1) = (r, s') ->
      r = R_OK /\ fin_cb cb (g_finished g') type a1 (bs_cb s') /\ s' = gs g' h (bs_cb s')).
    { intros a1 Htl. rewrite Hfin. unfold gs. rewrite Gst, Gby.
      unfold ergo_tree_added_tail, add_height_and_token_count, bs_feed in Htl. cbn in Htl.
      rewrite put_vlq32 in Htl by assumption. unfold gve_put_u8 in Htl.
      destruct (g_ntok g =? 0).
      - cbn in Htl. destruct (g_regs_len g =? 0).
        + unfold box_finished, add_empty_registers_count, bs_feed, bs_with_cb, bs_with_state, box_set_state in Htl.
          unfold fin_cb. cbn in Htl |- *. destruct (on_finished cb) as [f|].
          * destruct (f type a1) as [r2 a2] eqn:Ef. cbn in Htl. destruct (res_pass r2) eqn:Er2.
            -- inv Htl. cbn. split; [reflexivity|]. split; [exists r2; auto|].
               f_equal. rewrite <- !app_assoc. reflexivity.
            -- inv Htl. congruence.
          * inv Htl. cbn. split; [reflexivity|]. split; [reflexivity|].
            f_equal. rewrite <- !app_assoc. reflexivity.
        + inv Htl. cbn. split; [reflexivity|]. split; [reflexivity|].
          unfold bs_with_state, box_set_state. cbn. f_equal. rewrite <- !app_assoc. reflexivity.
      - inv Htl. cbn. split; [reflexivity|]. split; [reflexivity|].
        unfold bs_with_state, box_set_state. cbn. f_equal. rewrite <- !app_assoc. reflexivity. }
    unfold ergo_tree_added in H. unfold type_cb. cbn in H. destruct (on_type cb) as [f|].
    - destruct (f type (g_value g) a) as [r1 a1] eqn:Ef. destruct (res_pass r1) eqn:Er1.
      + apply Tail in H as (-> & Hf & Hs). split; [reflexivity|]. split; [assumption|].
        exists a1. split; [exists r1; auto|]. auto.
      + inv H. congruence.
    - apply Tail in H as (-> & Hf & Hs). split; [reflexivity|]. split; [assumption|]. exists a. auto.
  Qed.

  Lemma g_tree_ok : forall g h a chunk r s',
    gwf g -> box_add_tree cb (gs g h a) chunk = (r, s') -> res_pass r = true ->
    let t := g_tree g ++ chunk in
    let d := blen t =? g_tree_len g in
    let g' := g_set_tree g BT_TREE t d in
    g_done g = false /\ r = (if d then R_OK else R_MORE_DATA) /\ gwf g' /\
    (d = false -> 255 <= blen chunk) /\
    exists a1, (if d then type_cb cb BT_TREE (g_value g) a a1 else a1 = a) /\
      fin_cb cb (g_finished g') BT_TREE a1 (bs_cb s') /\ s' = gs g' h (bs_cb s').
  Proof.
    intros g h a chunk r s' W H Hr t d g'. unfold box_add_tree, gs in H. cbn [bs_box gstate bx_state] in H.
    destruct (g_done g) eqn:Ed.
    { exfalso. unfold g_box_state in H. rewrite Ed in H. cbn [negb] in H.
      destruct (blen (g_toks g) =? g_ntok g); cbn [negb] in H; [destruct (blen (g_regs g) =? g_regs_len g); cbn [negb] in H|];
        unfold box_res_error in H; inv H; discriminate. }
    assert (Et : g_type g = BT_TREE) by (apply W; assumption).
    assert (Ek : g_toks g = []) by (apply W; assumption).
    assert (Er : g_regs g = []) by (apply W; left; assumption).
    assert (Hle : blen (g_tree g) <= g_tree_len g) by (apply W; assumption).
    unfold g_box_state in H. rewrite Ed in H. cbn [negb] in H.
    assert (El : bx_tree_size (gstate g) = g_tree_len g - blen (g_tree g)).
    { unfold gstate, g_tree_left. rewrite Et. reflexivity. }
    rewrite El in H. split; [reflexivity|].
    destruct (g_tree_len g - blen (g_tree g) <? blen chunk) eqn:E1; [inv H; discriminate|].
    destruct ((blen chunk <? g_tree_len g - blen (g_tree g)) && (blen chunk <? MAX_DATA_CHUNK_LEN)) eqn:E2;
      [inv H; discriminate|].
    assert (Hlen : blen t = blen (g_tree g) + blen chunk) by (unfold t; apply blen_app).
    assert (Hd : (g_tree_len g - blen (g_tree g) - blen chunk =? 0) = d).
    { unfold d. rewrite Hlen. destruct (N.eqb_spec (blen (g_tree g) + blen chunk) (g_tree_len g));
        [apply N.eqb_eq|apply N.eqb_neq]; lia. }
    cbn [bs_feed bs_box bs_with_box box_set_tree_size bx_tree_size] in H. rewrite Hd in H.
    destruct d eqn:Ed'.
    - assert (Hl : blen t = g_tree_len g) by (apply N.eqb_eq; exact Ed').
      unfold bs_with_box, bs_feed, box_set_type, box_set_tree_size in H. cbn in H.
      replace (g_tree_len g - blen (g_tree g) - blen chunk) with 0 in H by lia.
      rewrite Ek, Er, !blen_nil, !N.sub_0_r in H.
      replace ((h ++ gbytes g) ++ chunk) with (h ++ vlq (g_value g) ++ t) in H.
      2:{ unfold gbytes, t. rewrite Ed, app_nil_r, <- !app_assoc. reflexivity. }
      unfold g_box_state in H. rewrite Ed in H. cbn [negb] in H.
      destruct (g_tree_added g h a r s' BT_TREE t W Ed (fun _ => Hl) H Hr) as (-> & W' & a1 & H1 & H2 & H3).
      split; [reflexivity|]. split; [exact W'|]. split; [discriminate|]. exists a1. auto.
    - inv H. split; [reflexivity|]. split; [|split].
      + destruct W. constructor; unfold g', g_set_tree; cbn; try assumption.
        all: intros; first [exact Ek | exact Er | reflexivity | discriminate | lia].
      + intros _. unfold MAX_DATA_CHUNK_LEN in E2. apply andb_false_iff in E2 as [E2|E2]; lia.
      + exists a. split; [reflexivity|]. cbn. split; [reflexivity|]. unfold gs, bs_with_box, bs_feed. cbn [bs_box bs_hash bs_cb].
        f_equal.
        * unfold gstate, g_box_state, g_tree_left, g', g_set_tree, box_set_tree_size. cbn. rewrite Ed, Et. cbn.
          f_equal. lia.
        * unfold gbytes, g', g_set_tree. cbn. rewrite Ed, !app_nil_r. unfold t. rewrite <- !app_assoc. reflexivity.
  Qed.

  (** Fee and change scripts are appended whole. *)
  Lemma g_whole_ok : forall g h a type tree r s',
    gwf g -> type <> BT_TREE -> g_tree g = [] ->
    match bx_state (gstate g) with
    | BX_INITIALIZED =>
        ergo_tree_added cb (bs_with_box (bs_feed (gs g h a) tree) (box_set_type (bs_box (bs_feed (gs g h a) tree)) type))
    | _ => box_res_error (gs g h a) R_BAD_STATE
    end = (r, s') -> res_pass r = true ->
    let g' := g_set_tree g type tree true in
    g_done g = false /\ r = R_OK /\ gwf g' /\
    exists a1, type_cb cb type (g_value g) a a1 /\
      fin_cb cb (g_finished g') type a1 (bs_cb s') /\ s' = gs g' h (bs_cb s').
  Proof.
    intros g h a type tree r s' W Ht Etr H Hr g'. cbn [gstate bx_state] in H.
    destruct (g_done g) eqn:Ed.
    { exfalso. unfold g_box_state in H. rewrite Ed in H. cbn [negb] in H.
      destruct (blen (g_toks g) =? g_ntok g); cbn [negb] in H; [destruct (blen (g_regs g) =? g_regs_len g); cbn [negb] in H|];
        unfold box_res_error in H; inv H; discriminate. }
    assert (Et : g_type g = BT_TREE) by (apply W; assumption).
    assert (Ek : g_toks g = []) by (apply W; assumption).
    assert (Er : g_regs g = []) by (apply W; left; assumption).
    split; [reflexivity|].
    unfold g_box_state in H. rewrite Ed in H. cbn [negb] in H.
    apply (g_tree_added g h a r s' type tree W Ed); [congruence| |assumption].
    unfold bs_with_box, bs_feed, box_set_type, gs, gstate in H. cbn in H.
    unfold g_box_state, g_tree_left, gbytes in H. rewrite Ed, Et, Etr, Ek, Er, !blen_nil, !N.sub_0_r in H.
    cbn [negb] in H. rewrite app_nil_r in H. rewrite <- H. rewrite <- app_assoc. cbn [app].
    do 3 f_equal. destruct type; congruence.
  Qed.
  Lemma g_fee_ok : forall g h a m r s',
    gwf g -> g_tree g = [] -> box_add_miners_fee_tree cb (gs g h a) m = (r, s') -> res_pass r = true ->
    let g' := g_set_tree g BT_FEE (ergo_tree_miners_fee_tree m) true in
    g_done g = false /\ r = R_OK /\ gwf g' /\
    exists a1, type_cb cb BT_FEE (g_value g) a a1 /\
      fin_cb cb (g_finished g') BT_FEE a1 (bs_cb s') /\ s' = gs g' h (bs_cb s').
  Proof. intros g h a m r s' W Etr H Hr. eapply g_whole_ok; [exact W|discriminate|exact Etr|exact H|exact Hr]. Qed.
  Lemma g_change_ok : forall g h a pk r s',
    gwf g -> g_tree g = [] -> box_add_change_tree cb (gs g h a) pk = (r, s') -> res_pass r = true ->
    let g' := g_set_tree g BT_CHANGE (ergo_tree_generate_p2pk pk) true in
    g_done g = false /\ r = R_OK /\ gwf g' /\
    exists a1, type_cb cb BT_CHANGE (g_value g) a a1 /\
      fin_cb cb (g_finished g') BT_CHANGE a1 (bs_cb s') /\ s' = gs g' h (bs_cb s').
  Proof. intros g h a pk r s' W Etr H Hr. eapply g_whole_ok; [exact W|discriminate|exact Etr|exact H|exact Hr]. Qed.

  (** Whatever the box, a script that is accepted only goes through the two callbacks. *)
  Lemma tree_added_cbs : forall s r s',
    ergo_tree_added cb s = (r, s') -> res_pass r = true ->
    exists a1 fin, type_cb cb (bx_type (bs_box s)) (bx_value (bs_box s)) (bs_cb s) a1 /\
      fin_cb cb fin (bx_type (bs_box s)) a1 (bs_cb s').
  Proof.
    intros s r s' H Hr.
    assert (T : forall a1, ergo_tree_added_tail cb (bs_with_cb s a1) = (r, s') ->
                exists fin, fin_cb cb fin (bx_type (bs_box s)) a1 (bs_cb s')).
    { intros a1 Ht. unfold ergo_tree_added_tail in Ht. cbn in Ht.
      destruct (bx_tokens_count (bs_box s) =? 0).
      - destruct (bx_regs_size (bs_box s) =? 0).
        + exists true. unfold box_finished in Ht. cbn in Ht. unfold fin_cb. destruct (on_finished cb) as [f|].
          * destruct (f (bx_type (bs_box s)) a1) as [r2 a2] eqn:Ef. destruct (res_pass r2) eqn:E2.
            -- inv Ht. cbn. exists r2. auto.
            -- inv Ht. congruence.
          * inv Ht. reflexivity.
        + exists false. inv Ht. reflexivity.
      - exists false. inv Ht. reflexivity. }
    unfold ergo_tree_added in H. unfold type_cb. destruct (on_type cb) as [f|].
    - destruct (f (bx_type (bs_box s)) (bx_value (bs_box s)) (bs_cb s)) as [r1 a1] eqn:Ef.
      destruct (res_pass r1) eqn:E1.
      + apply T in H as (fin & Hf). exists a1, fin. split; [exists r1; auto|exact Hf].
      + inv H. congruence.
    - assert (Es : s = bs_with_cb s (bs_cb s)) by (destruct s; reflexivity).
      rewrite Es in H. apply T in H as (fin & Hf). exists (bs_cb s), fin. auto.
  Qed.

  (** ** Tokens *)

  Definition tok_count (s : bs A) (n : N) (h : bytes) (a : A) : bs A :=
    mk_bs (box_set_tokens_count (bs_box s) n) h a.

  Lemma box_one_token_ok : forall table s input r s' rest,
    bytes_ok input = true -> box_one_token cb table s input = (r, s', rest) -> res_pass r = true ->
    r = R_OK /\ bx_tokens_count (bs_box s) <> 0 /\
    exists e, input = e ++ rest /\ length e = tok_size table /\ tok_in table e /\
      token_cbs cb (bx_type (bs_box s)) [tok_entry table e] (bs_cb s) (bs_cb s') /\
      s' = tok_count s (bx_tokens_count (bs_box s) - 1) (bs_hash s ++ tok_enc table e) (bs_cb s').
  Proof.
    intros table s input r s' rest Hok H Hr. unfold box_one_token in H.
    destruct (bx_tokens_count (bs_box s) =? 0) eqn:E0; [inv H; discriminate|].
    apply N.eqb_neq in E0.
    assert (V : forall p id enc inp, bytes_ok inp = true ->
      box_token_value cb (bs_feed s enc) id inp = (r, s', rest) ->
      r = R_OK /\ exists vb, inp = vb ++ rest /\ length vb = 8%nat /\
      token_cbs cb (bx_type (bs_box s)) [(id, be_value vb)] (bs_cb s) (bs_cb s') /\
      s' = tok_count s (bx_tokens_count (bs_box s) - 1) (bs_hash s ++ enc ++ vlq (be_value vb)) (bs_cb s') /\ p = p :> bool).
    { intros p id enc inp Hi Hv. unfold box_token_value in Hv. cbn [bs_feed bs_box bs_cb bs_hash] in Hv.
      destruct (read_u64 inp) as [[v rst]|] eqn:Ev; [|inv Hv; discriminate].
      apply read_be_spec in Ev as (vb & Hin & Hlen & Hval).
      assert (Hvb : v < two64).
      { subst v. rewrite Hin, bytes_ok_app in Hi. apply andb_true_iff in Hi as [Hi _].
        apply be_value_bound in Hi. unfold blen in Hi. rewrite Hlen in Hi. exact Hi. }
      rewrite put_vlq64 in Hv by assumption.
      assert (F : forall a2, bs_with_box (mk_bs (bs_box s) ((bs_hash s ++ enc) ++ vlq v) a2)
                       (box_set_tokens_count (bs_box s) (bx_tokens_count (bs_box s) - 1))
                = tok_count s (bx_tokens_count (bs_box s) - 1) (bs_hash s ++ enc ++ vlq v) a2).
      { intro a2. unfold tok_count, bs_with_box. cbn. rewrite <- app_assoc. reflexivity. }
      unfold token_cbs. destruct (on_token cb) as [f|].
      - destruct (f (bx_type (bs_box s)) id v (bs_cb s)) as [r2 a2] eqn:Ef. destruct (res_pass r2) eqn:E2.
        + unfold bs_feed, bs_with_cb in Hv. cbn in Hv. rewrite F in Hv. inv Hv. split; [reflexivity|].
          exists vb. do 2 (split; [assumption || reflexivity|]). split.
          * exists a2. split; [exists r2; auto|reflexivity].
          * split; reflexivity.
        + inv Hv. congruence.
      - unfold bs_feed, bs_with_cb in Hv. cbn in Hv. rewrite F in Hv. inv Hv. split; [reflexivity|].
        exists vb. do 2 (split; [assumption || reflexivity|]). split.
        * exists (bs_cb s). split; reflexivity.
        * split; reflexivity. }
    destruct table as [[distinct ids]|].
    - destruct (read_u32 input) as [[idx rst]|] eqn:Ei; [|inv H; discriminate].
      apply read_be_spec in Ei as (ib & Hin & Hlen & Hval).
      destruct (distinct <=? idx) eqn:Ed; [inv H; discriminate|].
      pose proof Hok as Hok'. rewrite Hin, bytes_ok_app in Hok'. apply andb_true_iff in Hok' as [Hib Hrst].
      apply (V true) in H; [|assumption]. destruct H as (-> & vb & Hv & Hvl & Hc & Hs & _).
      split; [reflexivity|]. split; [assumption|]. exists (ib ++ vb).
      assert (N0 : num 0 4 (ib ++ vb) = idx).
      { unfold num, slice. cbn [skipn]. rewrite firstn_app, firstn_all2 by lia. rewrite Hlen. cbn [firstn Nat.sub].
        rewrite app_nil_r. auto. }
      assert (N1 : num 4 8 (ib ++ vb) = be_value vb).
      { unfold num, slice. rewrite skipn_app, skipn_all2 by lia. rewrite Hlen. cbn [skipn Nat.sub app].
        rewrite firstn_all2 by lia. reflexivity. }
      split; [rewrite <- app_assoc, Hin, Hv; reflexivity|]. split; [rewrite app_length; cbn; lia|].
      unfold tok_in, tok_entry, tok_enc. rewrite N0, N1. split; [lia|]. split; [exact Hc|].
      rewrite put_vlq32 in Hs; [exact Hs|].
      subst idx. apply be_value_bound in Hib. unfold blen in Hib. rewrite Hlen in Hib. exact Hib.
    - destruct (read_bytes ERGO_ID_LEN input) as [[id rst]|] eqn:Ei; [|inv H; discriminate].
      apply read_bytes_spec in Ei as (Hin & Hlen). unfold ERGO_ID_LEN in Hlen.
      pose proof Hok as Hok'. rewrite Hin, bytes_ok_app in Hok'. apply andb_true_iff in Hok' as [Hib Hrst].
      apply (V true) in H; [|assumption]. destruct H as (-> & vb & Hv & Hvl & Hc & Hs & _).
      split; [reflexivity|]. split; [assumption|]. exists (id ++ vb).
      assert (N0 : slice 0 32 (id ++ vb) = id).
      { unfold slice. cbn [skipn]. rewrite firstn_app, firstn_all2 by lia. rewrite Hlen. cbn [firstn Nat.sub].
        apply app_nil_r. }
      assert (N1 : num 32 8 (id ++ vb) = be_value vb).
      { unfold num, slice. rewrite skipn_app, skipn_all2 by lia. rewrite Hlen. cbn [skipn Nat.sub app].
        rewrite firstn_all2 by lia. reflexivity. }
      split; [rewrite <- app_assoc, Hin, Hv; reflexivity|]. split; [rewrite app_length; cbn; lia|].
      unfold tok_in, tok_entry, tok_enc. rewrite N0, N1. split; [exact I|]. split; [exact Hc|exact Hs].
  Qed.

  Lemma token_cbs_app : forall t l1 l2 a a1 a2,
    token_cbs cb t l1 a a1 -> token_cbs cb t l2 a1 a2 -> token_cbs cb t (l1 ++ l2) a a2.
  Proof.
    intros t l1. induction l1 as [|[id v] l1 IH]; cbn; intros l2 a a1 a2 H1 H2.
    - subst. assumption.
    - destruct H1 as (b & Hb & H1). exists b. split; [assumption|]. eapply IH; eassumption.
  Qed.

  Lemma box_tokens_loop_ok : forall table fuel s input r s',
    bytes_ok input = true -> box_tokens_loop cb fuel table s input = (r, s') -> res_pass r = true ->
    r = R_OK /\
    let es := entries (tok_size table) input in
    Forall (fun e => length e = tok_size table /\ tok_in table e) es /\
    blen es <= bx_tokens_count (bs_box s) /\
    token_cbs cb (bx_type (bs_box s)) (map (tok_entry table) es) (bs_cb s) (bs_cb s') /\
    s' = tok_count s (bx_tokens_count (bs_box s) - blen es)
                   (bs_hash s ++ concat (map (tok_enc table) es)) (bs_cb s').
  Proof.
    intros table fuel. induction fuel as [|k IH]; intros s input r s' Hok H Hr; cbn [box_tokens_loop] in H.
    { inv H. discriminate. }
    destruct input as [|x input].
    { inv H. split; [reflexivity|]. cbn. split; [constructor|]. rewrite blen_nil, N.sub_0_r, app_nil_r.
      split; [lia|]. split; [reflexivity|]. destruct s' as [b hh aa]. destruct b. reflexivity. }
    remember (x :: input) as inp eqn:Ein. clear Ein.
    destruct (box_one_token cb table s inp) as [[r1 s1] rest] eqn:E1.
    destruct (res_pass r1) eqn:Er1.
    2:{ destruct r1; inv H; discriminate. }
    destruct (box_one_token_ok table s inp r1 s1 rest Hok E1 Er1) as (-> & Hc & e & Hin & Hl & Hin' & Hcb & Hs1).
    assert (Hrest : bytes_ok rest = true).
    { rewrite Hin, bytes_ok_app in Hok. apply andb_true_iff in Hok. tauto. }
    destruct (IH s1 rest r s' Hrest H Hr) as (-> & Hf & Hle & Hcb' & Hs').
    split; [reflexivity|]. cbv zeta. rewrite Hin, entries_app; [|apply tok_size_pos|assumption].
    assert (B1 : bx_type (bs_box s1) = bx_type (bs_box s)) by (rewrite Hs1; reflexivity).
    assert (B2 : bx_tokens_count (bs_box s1) = bx_tokens_count (bs_box s) - 1) by (rewrite Hs1; reflexivity).
    rewrite B1 in Hcb'. rewrite B2 in Hs', Hle. rewrite blen_cons.
    split; [constructor; auto|].
    split; [lia|]. split.
    - cbn [map]. change (tok_entry table e :: ?l) with ([tok_entry table e] ++ l).
      change (tok_entry table e :: map (tok_entry table) (entries (tok_size table) rest))
        with ([tok_entry table e] ++ map (tok_entry table) (entries (tok_size table) rest)).
      eapply token_cbs_app; eassumption.
    - rewrite Hs' at 1. unfold tok_count. cbn [bs_cb]. f_equal.
      + rewrite Hs1. unfold tok_count, box_set_tokens_count. cbn. f_equal. lia.
      + rewrite Hs1. unfold tok_count. cbn. rewrite <- app_assoc. reflexivity.
  Qed.

  Lemma g_tokens_ok : forall g h a input table r s',
    gwf g -> bytes_ok input = true ->
    box_add_tokens cb (gs g h a) input table = (r, s') -> res_pass r = true ->
    let es := entries (tok_size table) input in
    let g' := g_add_toks g (map (tok_enc table) es) in
    g_done g = true /\ blen (g_toks g) <> g_ntok g /\
    r = (if blen (g_toks g') =? g_ntok g then R_OK else R_MORE_DATA) /\ gwf g' /\
    Forall (fun e => length e = tok_size table /\ tok_in table e) es /\
    exists a1, token_cbs cb (g_type g) (map (tok_entry table) es) a a1 /\
      fin_cb cb (g_finished g') (g_type g) a1 (bs_cb s') /\ s' = gs g' h (bs_cb s').
  Proof.
    intros g h a input table r s' W Hok H Hr es g'. unfold box_add_tokens in H.
    assert (St : g_done g = true /\ blen (g_toks g) <> g_ntok g).
    { unfold gs in H. cbn [bs_box gstate bx_state] in H. unfold g_box_state in H.
      destruct (g_done g); cbn [negb] in H; [|inv H; discriminate].
      destruct (N.eqb_spec (blen (g_toks g)) (g_ntok g)); cbn [negb] in H; [|auto].
      destruct (blen (g_regs g) =? g_regs_len g); cbn [negb] in H; inv H; discriminate. }
    destruct St as (Ed & Ek). split; [assumption|]. split; [assumption|].
    assert (Er : g_regs g = []) by (apply W; right; assumption).
    pose proof (gw_toks _ W) as Hle.
    unfold gs in H. cbn [bs_box gstate bx_state] in H. unfold g_box_state in H.
    rewrite Ed in H. apply N.eqb_neq in Ek. rewrite Ek in H. cbn [negb] in H. apply N.eqb_neq in Ek.
    change (mk_bs (gstate g) (h ++ gbytes g) a) with (gs g h a) in H.
    destruct (box_tokens_loop cb (S (length input)) table (gs g h a) input) as [r1 s1] eqn:E1.
    destruct (res_pass r1) eqn:Er1.
    2:{ destruct r1; inv H; discriminate. }
    destruct (box_tokens_loop_ok _ _ _ _ _ _ Hok E1 Er1) as (-> & Hf & Hn & Hcb & Hs1).
    cbn [gs bs_box gstate bx_tokens_count bx_type bs_cb bs_hash] in Hn, Hcb, Hs1.
    fold es in Hn, Hcb, Hs1, Hf.
    assert (Hlen : blen (g_toks g') = blen (g_toks g) + blen es).
    { unfold g', g_add_toks. cbn. rewrite blen_app. f_equal. unfold blen. rewrite map_length. reflexivity. }
    assert (W' : gwf g').
    { destruct W. constructor; unfold g', g_add_toks in *; cbn in *; try assumption.
      - lia.
      - congruence.
      - intros _. exact Er. }
    assert (Cnt : bx_tokens_count (bs_box s1) = g_ntok g - blen (g_toks g')).
    { rewrite Hs1. unfold tok_count, box_set_tokens_count. cbn [bs_box bx_tokens_count]. rewrite Hlen. lia. }
    assert (Rg : bx_regs_size (bs_box s1) = g_regs_len g).
    { rewrite Hs1. cbn. rewrite Er, blen_nil. lia. }
    assert (Ty : bx_type (bs_box s1) = g_type g) by (rewrite Hs1; reflexivity).
    assert (Gb : gbytes g' = vlq (g_value g) ++ g_tree g ++ vlq (g_height g) ++ [g_ntok g] ++ concat (g_toks g) ++
               concat (map (tok_enc table) es) ++
               (if blen (g_toks g') =? g_ntok g then if g_regs_len g =? 0 then [0] else [] else [])).
    { unfold gbytes, g', g_add_toks. cbn. rewrite Ed, Er, concat_app, <- !app_assoc. reflexivity. }
    assert (Hh1 : bs_hash s1 = h ++ vlq (g_value g) ++ g_tree g ++ vlq (g_height g) ++ [g_ntok g] ++ concat (g_toks g) ++
               concat (map (tok_enc table) es)).
    { rewrite Hs1. unfold tok_count. cbn [bs_hash]. unfold gbytes. rewrite Ed.
      apply N.eqb_neq in Ek. rewrite Ek. rewrite app_nil_r, <- !app_assoc. reflexivity. }
    assert (Gs : gstate g' = mk_box (if blen (g_toks g') =? g_ntok g then if g_regs_len g =? 0 then BX_FINISHED
                                      else BX_TOKENS_ADDED else BX_TREE_ADDED) (g_value g) (g_tree_left g) (g_height g)
                                     (g_regs_len g) (g_ntok g - blen (g_toks g')) (g_type g)).
    { unfold gstate, g_box_state, g_tree_left, g', g_add_toks. cbn. rewrite Ed, Er, !blen_nil, !N.sub_0_r. cbn.
      f_equal. destruct (blen (g_toks g ++ map (tok_enc table) es) =? g_ntok g); cbn; [|reflexivity].
      rewrite (N.eqb_sym 0). destruct (g_regs_len g =? 0); reflexivity. }
    assert (Fin : g_finished g' = (blen (g_toks g') =? g_ntok g) && (g_regs_len g =? 0)).
    { unfold g_finished, g', g_add_toks. cbn. rewrite Ed, Er, blen_nil, (N.eqb_sym 0). reflexivity. }
    assert (B1 : bs_box s1 = mk_box BX_TREE_ADDED (g_value g) (g_tree_left g) (g_height g)
                                     (g_regs_len g) (g_ntok g - blen (g_toks g')) (g_type g)).
    { rewrite Hs1. unfold tok_count, box_set_tokens_count, gstate. cbn. unfold g_box_state. rewrite Ed.
      apply N.eqb_neq in Ek. rewrite Ek, Er, blen_nil, N.sub_0_r. cbn [negb]. f_equal.
      change (g_toks g ++ map (tok_enc table) es) with (g_toks g'). rewrite Hlen. lia. }
    cbv zeta in Hcb.
    assert (Cz : (g_ntok g - blen (g_toks g') =? 0) = (blen (g_toks g') =? g_ntok g)).
    { pose proof (gw_toks _ W') as Hw. change (g_ntok g') with (g_ntok g) in Hw.
      destruct (N.eqb_spec (blen (g_toks g')) (g_ntok g)); [apply N.eqb_eq|apply N.eqb_neq]; lia. }
    unfold box_tokens_done in H. rewrite Cnt, Cz in H. rewrite Rg in H.
    unfold gs. rewrite Gb, Gs, Fin. destruct (blen (g_toks g') =? g_ntok g).
    - destruct (g_regs_len g =? 0).
      + unfold box_finished, add_empty_registers_count in H. cbn [bs_feed bs_box bs_cb bs_hash] in H. rewrite Ty in H.
        unfold fin_cb. cbn [andb].
        assert (Q : forall a2, bs_with_state (mk_bs (bs_box s1) (bs_hash s1 ++ gve_put_u8 0) a2) BX_FINISHED =
                    mk_bs (mk_box BX_FINISHED (g_value g) (g_tree_left g) (g_height g)
                                     (g_regs_len g) (g_ntok g - blen (g_toks g')) (g_type g))
                          (h ++ vlq (g_value g) ++ g_tree g ++ vlq (g_height g) ++ [g_ntok g] ++ concat (g_toks g) ++
                           concat (map (tok_enc table) es) ++ [0]) a2).
        { intro a2. unfold bs_with_state. cbn [bs_box bs_hash bs_cb]. rewrite B1, Hh1. unfold box_set_state. cbn.
          rewrite <- !app_assoc. cbn. rewrite <- !app_assoc. reflexivity. }
        destruct (on_finished cb) as [f|].
        * destruct (f (g_type g) (bs_cb s1)) as [r2 a2] eqn:Ef. destruct (res_pass r2) eqn:E2.
          -- unfold bs_with_cb, bs_feed in H. cbn [bs_box bs_hash bs_cb] in H. rewrite Q in H. inv H.
             split; [reflexivity|]. split; [assumption|]. split; [assumption|].
             exists (bs_cb s1). split; [assumption|]. cbn. split; [exists r2; auto|reflexivity].
          -- inv H. congruence.
        * unfold bs_with_cb, bs_feed in H. cbn [bs_box bs_hash bs_cb] in H. rewrite Q in H. inv H.
          split; [reflexivity|]. split; [assumption|]. split; [assumption|].
          exists (bs_cb s1). split; [assumption|]. cbn. split; reflexivity.
      + inv H. split; [reflexivity|]. split; [assumption|]. split; [assumption|].
        exists (bs_cb s1). split; [assumption|]. cbn [andb fin_cb]. split; [reflexivity|].
        unfold bs_with_state. cbn [bs_cb]. rewrite B1, Hh1, app_nil_r. unfold box_set_state. reflexivity.
    - inv H. split; [reflexivity|]. split; [assumption|]. split; [assumption|].
      exists (bs_cb s'). split; [assumption|]. cbn [andb fin_cb]. split; [reflexivity|].
      rewrite app_nil_r, <- Hh1, <- B1. destruct s'; reflexivity.
  Qed.

  Lemma g_regs_ok : forall g h a chunk r s',
    gwf g -> box_add_registers cb (gs g h a) chunk = (r, s') -> res_pass r = true ->
    let g' := g_add_regs g chunk in
    g_done g = true /\ blen (g_toks g) = g_ntok g /\ blen (g_regs g) <> g_regs_len g /\
    r = (if blen (g_regs g') =? g_regs_len g then R_OK else R_MORE_DATA) /\ gwf g' /\
    fin_cb cb (g_finished g') (g_type g) a (bs_cb s') /\ s' = gs g' h (bs_cb s').
  Proof.
    intros g h a chunk r s' W H Hr g'. unfold box_add_registers in H.
    assert (St : g_done g = true /\ blen (g_toks g) = g_ntok g /\ blen (g_regs g) <> g_regs_len g).
    { unfold gs in H. cbn [bs_box gstate bx_state] in H. unfold g_box_state in H.
      destruct (g_done g); cbn [negb] in H; [|inv H; discriminate].
      destruct (N.eqb_spec (blen (g_toks g)) (g_ntok g)); cbn [negb] in H; [|inv H; discriminate].
      destruct (N.eqb_spec (blen (g_regs g)) (g_regs_len g)); cbn [negb] in H; [inv H; discriminate|auto]. }
    destruct St as (Ed & Ek & Er). do 3 (split; [assumption|]).
    pose proof (gw_regs _ W) as Hle.
    assert (Gst : gstate g = mk_box BX_TOKENS_ADDED (g_value g) (g_tree_left g) (g_height g)
                                (g_regs_len g - blen (g_regs g)) (g_ntok g - blen (g_toks g)) (g_type g)).
    { unfold gstate, g_box_state. rewrite Ed. apply N.eqb_eq in Ek. apply N.eqb_neq in Er. rewrite Ek, Er. reflexivity. }
    unfold gs in H. rewrite Gst in H. cbn [bs_box bx_state bx_regs_size] in H.
    destruct (g_regs_len g - blen (g_regs g) <? blen chunk) eqn:E1; [inv H; discriminate|].
    assert (Hlen : blen (g_regs g') = blen (g_regs g) + blen chunk) by (unfold g'; cbn; apply blen_app).
    assert (W' : gwf g').
    { destruct W. constructor; unfold g', g_add_regs in *; cbn in *; try assumption.
      - lia.
      - intros [Hx|Hx]; congruence. }
    assert (Nz : g_regs_len g =? 0 = false) by (apply N.eqb_neq; lia).
    assert (Gb : gbytes g' = gbytes g ++ chunk).
    { unfold gbytes, g', g_add_regs. cbn. rewrite Ed. apply N.eqb_eq in Ek. rewrite Ek, Nz, <- !app_assoc.
      cbn. rewrite <- !app_assoc. reflexivity. }
    assert (Cz : (g_regs_len g - blen (g_regs g) - blen chunk =? 0) = (blen (g_regs g') =? g_regs_len g)).
    { destruct (N.eqb_spec (blen (g_regs g')) (g_regs_len g)); [apply N.eqb_eq|apply N.eqb_neq]; lia. }
    assert (Gs : gstate g' = mk_box (if blen (g_regs g') =? g_regs_len g then BX_FINISHED else BX_TOKENS_ADDED)
                     (g_value g) (g_tree_left g) (g_height g)
                     (g_regs_len g - blen (g_regs g')) (g_ntok g - blen (g_toks g)) (g_type g)).
    { unfold gstate, g_box_state, g_tree_left, g', g_add_regs. cbn. rewrite Ed. apply N.eqb_eq in Ek. rewrite Ek. cbn.
      f_equal. destruct (blen (g_regs g ++ chunk) =? g_regs_len g); reflexivity. }
    assert (Fin : g_finished g' = (blen (g_regs g') =? g_regs_len g)).
    { unfold g_finished, g', g_add_regs. cbn. rewrite Ed. apply N.eqb_eq in Ek. rewrite Ek. reflexivity. }
    unfold bs_feed, bs_with_box, box_set_regs_size in H. cbn in H. rewrite Cz in H.
    replace (g_regs_len g - blen (g_regs g) - blen chunk) with (g_regs_len g - blen (g_regs g')) in H by lia.
    rewrite <- app_assoc, <- Gb in H.
    unfold gs. rewrite Gs, Fin. destruct (blen (g_regs g') =? g_regs_len g).
    - unfold box_finished, bs_with_cb, bs_with_state, box_set_state in H. cbn in H. unfold fin_cb.
      destruct (on_finished cb) as [f|].
      + destruct (f (g_type g) a) as [r2 a2] eqn:Ef. cbn in H. destruct (res_pass r2) eqn:E2.
        * inv H. cbn. do 2 (split; [assumption || reflexivity|]). split; [exists r2; auto|reflexivity].
        * inv H. congruence.
      + inv H. cbn. do 3 (split; [assumption || reflexivity|]). reflexivity.
    - inv H. cbn. do 3 (split; [assumption || reflexivity|]). reflexivity.
  Qed.
End G.
