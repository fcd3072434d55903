(** The serializers never look at the bytes they have hashed: two states that differ only
    in the hash stream behave alike. *)
From Verif Require Import Lib Env Bip32 ErgoTree TxTable TxBox TxInput TxFull Amounts OutputInfo UiFlow P2pkOp.

#[local] Arguments N.eqb : simpl never.
#[local] Arguments N.ltb : simpl never.
#[local] Arguments N.leb : simpl never.
#[local] Arguments N.sub : simpl never.
#[local] Arguments blen : simpl never.

Section Blind.
  Context {A : Type}.

  Definition bsim (x y : res * bs A) : Prop := fst x = fst y /\ bs_box (snd x) = bs_box (snd y) /\ bs_cb (snd x) = bs_cb (snd y).
  Definition isim (x y : res * ins A) : Prop := fst x = fst y /\ is_in (snd x) = is_in (snd y) /\ is_cb (snd x) = is_cb (snd y).
  Definition fsim (x y : res * fs A) : Prop := fst x = fst y /\ fs_full (snd x) = fs_full (snd y) /\ fs_cb (snd x) = fs_cb (snd y).

  Variable cb : box_callbacks A.

  Lemma box_finished_sim : forall b h h' a, bsim (box_finished cb (mk_bs b h a)) (box_finished cb (mk_bs b h' a)).
  Proof.
    intros. unfold box_finished. cbn [bs_box bs_cb bs_hash]. destruct (on_finished cb) as [f|]; [|do 2 (split; [reflexivity|]); reflexivity].
    destruct (f (bx_type b) a) as [r a']. destruct (res_pass r); do 2 (split; [reflexivity|]); reflexivity.
  Qed.
  Lemma tail_sim : forall b h h' a, bsim (ergo_tree_added_tail cb (mk_bs b h a)) (ergo_tree_added_tail cb (mk_bs b h' a)).
  Proof.
    intros. unfold ergo_tree_added_tail, add_height_and_token_count, bs_feed, bs_with_state, add_empty_registers_count, bs_feed. cbn [bs_box bs_cb bs_hash].
    destruct (bx_tokens_count b =? 0); [|do 2 (split; [reflexivity|]); reflexivity]. cbn [box_set_state bx_regs_size].
    destruct (bx_regs_size b =? 0); [apply box_finished_sim|do 2 (split; [reflexivity|]); reflexivity].
  Qed.
  Lemma added_sim : forall b h h' a, bsim (ergo_tree_added cb (mk_bs b h a)) (ergo_tree_added cb (mk_bs b h' a)).
  Proof.
    intros. unfold ergo_tree_added. cbn [bs_box bs_cb bs_hash]. destruct (on_type cb) as [f|]; [|apply tail_sim].
    destruct (f (bx_type b) (bx_value b) a) as [r a']. destruct (res_pass r); [apply tail_sim|do 2 (split; [reflexivity|]); reflexivity].
  Qed.
  Lemma add_tree_sim : forall b h h' a c, bsim (box_add_tree cb (mk_bs b h a) c) (box_add_tree cb (mk_bs b h' a) c).
  Proof.
    intros. unfold box_add_tree. cbn [bs_box bs_cb bs_hash]. destruct (bx_state b); try (do 2 (split; [reflexivity|]); reflexivity).
    destruct (bx_tree_size b <? blen c); [do 2 (split; [reflexivity|]); reflexivity|].
    destruct ((blen c <? bx_tree_size b) && (blen c <? MAX_DATA_CHUNK_LEN)); [do 2 (split; [reflexivity|]); reflexivity|].
    cbv zeta. destruct (bx_tree_size b - blen c =? 0); [apply added_sim|do 2 (split; [reflexivity|]); reflexivity].
  Qed.
  Lemma add_fee_sim : forall b h h' a m, bsim (box_add_miners_fee_tree cb (mk_bs b h a) m) (box_add_miners_fee_tree cb (mk_bs b h' a) m).
  Proof.
    intros. unfold box_add_miners_fee_tree. cbn [bs_box bs_cb bs_hash]. destruct (bx_state b); try (do 2 (split; [reflexivity|]); reflexivity). apply added_sim.
  Qed.
  Lemma add_change_sim : forall b h h' a k k', bsim (box_add_change_tree cb (mk_bs b h a) k) (box_add_change_tree cb (mk_bs b h' a) k').
  Proof.
    intros. unfold box_add_change_tree. cbn [bs_box bs_cb bs_hash]. destruct (bx_state b); try (do 2 (split; [reflexivity|]); reflexivity). apply added_sim.
  Qed.
  Definition tsim (x y : res * bs A * bytes) : Prop := bsim (fst x) (fst y) /\ snd x = snd y.
  Lemma value_sim : forall b h h' a id l, tsim (box_token_value cb (mk_bs b h a) id l) (box_token_value cb (mk_bs b h' a) id l).
  Proof.
    intros. unfold box_token_value. destruct (read_u64 l) as [[v rest]|]; [|split; [do 2 (split; [reflexivity|]); reflexivity|reflexivity]].
    cbn [bs_box bs_cb bs_hash bs_feed]. destruct (on_token cb) as [f|]; [|split; [do 2 (split; [reflexivity|]); reflexivity|reflexivity]].
    destruct (f (bx_type b) id v a) as [r a']. destruct (res_pass r); (split; [do 2 (split; [reflexivity|]); reflexivity|reflexivity]).
  Qed.
  Lemma one_token_sim : forall t b h h' a l, tsim (box_one_token cb t (mk_bs b h a) l) (box_one_token cb t (mk_bs b h' a) l).
  Proof.
    intros. unfold box_one_token. cbn [bs_box]. destruct (bx_tokens_count b =? 0); [split; [do 2 (split; [reflexivity|]); reflexivity|reflexivity]|].
    destruct t as [[d ids]|].
    - destruct (read_u32 l) as [[i rest]|]; [|split; [do 2 (split; [reflexivity|]); reflexivity|reflexivity]].
      destruct (d <=? i); [split; [do 2 (split; [reflexivity|]); reflexivity|reflexivity]|]. apply value_sim.
    - destruct (read_bytes ERGO_ID_LEN l) as [[i rest]|]; [|split; [do 2 (split; [reflexivity|]); reflexivity|reflexivity]]. apply value_sim.
  Qed.
  Lemma tokens_loop_sim : forall fuel t b h h' a l, bsim (box_tokens_loop cb fuel t (mk_bs b h a) l) (box_tokens_loop cb fuel t (mk_bs b h' a) l).
  Proof.
    induction fuel as [|k IH]; intros; cbn [box_tokens_loop]; [do 2 (split; [reflexivity|]); reflexivity|].
    destruct l as [|x l]; [do 2 (split; [reflexivity|]); reflexivity|].
    destruct (one_token_sim t b h h' a (x :: l)) as [(K1 & K2 & K3) K4].
    destruct (box_one_token cb t (mk_bs b h a) (x :: l)) as [[r1 [b1 h1 a1]] l1]. destruct (box_one_token cb t (mk_bs b h' a) (x :: l)) as [[r2 [b2 h2 a2]] l2].
    cbn [fst snd bs_box bs_cb] in K1, K2, K3, K4. subst r2 b2 a2 l2. destruct r1; try (do 2 (split; [reflexivity|]); reflexivity). apply IH.
  Qed.
  Lemma add_tokens_sim : forall b h h' a l t, bsim (box_add_tokens cb (mk_bs b h a) l t) (box_add_tokens cb (mk_bs b h' a) l t).
  Proof.
    intros. unfold box_add_tokens. cbn [bs_box]. destruct (bx_state b); try (do 2 (split; [reflexivity|]); reflexivity).
    destruct (tokens_loop_sim (S (length l)) t b h h' a l) as (K1 & K2 & K3).
    destruct (box_tokens_loop cb (S (length l)) t (mk_bs b h a) l) as [r1 [b1 h1 a1]]. destruct (box_tokens_loop cb (S (length l)) t (mk_bs b h' a) l) as [r2 [b2 h2 a2]].
    cbn [fst snd bs_box bs_cb] in K1, K2, K3. subst r2 b2 a2. destruct r1; try (do 2 (split; [reflexivity|]); reflexivity).
    unfold box_tokens_done, add_empty_registers_count, bs_feed. cbn [bs_box bs_cb bs_hash]. destruct (bx_tokens_count b1 =? 0); [|do 2 (split; [reflexivity|]); reflexivity].
    destruct (bx_regs_size b1 =? 0); [apply box_finished_sim|do 2 (split; [reflexivity|]); reflexivity].
  Qed.
  Lemma add_registers_sim : forall b h h' a l, bsim (box_add_registers cb (mk_bs b h a) l) (box_add_registers cb (mk_bs b h' a) l).
  Proof.
    intros. unfold box_add_registers. cbn [bs_box]. destruct (bx_state b); try (do 2 (split; [reflexivity|]); reflexivity).
    destruct (bx_regs_size b <? blen l); [do 2 (split; [reflexivity|]); reflexivity|]. cbv zeta.
    destruct (bx_regs_size b - blen l =? 0); [apply box_finished_sim|do 2 (split; [reflexivity|]); reflexivity].
  Qed.
  Lemma box_init_sim : forall v t ht n rg h h' (a : A), bsim (box_init v t ht n rg h a) (box_init v t ht n rg h' a).
  Proof.
    intros. unfold box_init. destruct (_ <? n); [do 2 (split; [reflexivity|]); reflexivity|]. destruct (_ <? t); [do 2 (split; [reflexivity|]); reflexivity|].
    destruct (_ <? rg); do 2 (split; [reflexivity|]); reflexivity.
  Qed.

  (** Inputs. *)
  Lemma input_loop_sim : forall ocb fuel c h h' a l, isim (input_tokens_loop (A := A) ocb fuel (mk_ins c h a) l) (input_tokens_loop ocb fuel (mk_ins c h' a) l).
  Proof.
    intro ocb. induction fuel as [|k IH]; intros; cbn [input_tokens_loop]; [do 2 (split; [reflexivity|]); reflexivity|].
    destruct l as [|x l]; [do 2 (split; [reflexivity|]); reflexivity|]. destruct (read_bytes ERGO_ID_LEN (x :: l)) as [[i r1]|]; [|do 2 (split; [reflexivity|]); reflexivity].
    destruct (read_u64 r1) as [[v r2]|]; [|do 2 (split; [reflexivity|]); reflexivity]. destruct ocb as [f|]; [|apply IH]. cbn [is_in is_cb is_hash].
    destruct (f (in_box_id c) i v a) as [r a']. destruct r; try (do 2 (split; [reflexivity|]); reflexivity). apply IH.
  Qed.
  Lemma input_tokens_sim : forall ocb c h h' a id i l, isim (input_add_tokens (A := A) ocb (mk_ins c h a) id i l) (input_add_tokens ocb (mk_ins c h' a) id i l).
  Proof.
    intros. unfold input_add_tokens. cbn [is_in]. destruct (in_state c); try (do 2 (split; [reflexivity|]); reflexivity).
    destruct (bytes_eqb (in_box_id c) id); [|do 2 (split; [reflexivity|]); reflexivity]. cbn [negb].
    destruct (_ <=? i); [do 2 (split; [reflexivity|]); reflexivity|]. destruct (negb _); [do 2 (split; [reflexivity|]); reflexivity|].
    destruct (input_loop_sim ocb (S (length l)) c h h' a l) as (K1 & K2 & K3).
    destruct (input_tokens_loop ocb (S (length l)) (mk_ins c h a) l) as [r1 [c1 h1 a1]]. destruct (input_tokens_loop ocb (S (length l)) (mk_ins c h' a) l) as [r2 [c2 h2 a2]].
    cbn [fst snd is_in is_cb] in K1, K2, K3. subst r2 c2 a2. destruct r1; try (do 2 (split; [reflexivity|]); reflexivity).
    unfold input_frame_done. cbn [is_in is_cb is_hash in_state in_box_id in_frames_count in_frames_processed in_ext_size].
    destruct (_ =? in_frames_count c1); [|do 2 (split; [reflexivity|]); reflexivity]. destruct (in_ext_size c1 =? 0); do 2 (split; [reflexivity|]); reflexivity.
  Qed.
  Lemma input_ext_sim : forall c h h' (a : A) l, isim (input_add_context_extension (mk_ins c h a) l) (input_add_context_extension (mk_ins c h' a) l).
  Proof.
    intros. unfold input_add_context_extension. cbn [is_in is_cb is_hash]. destruct (in_state c); try (do 2 (split; [reflexivity|]); reflexivity).
    destruct (in_ext_size c <? blen l); [do 2 (split; [reflexivity|]); reflexivity|]. cbn [in_ext_size]. destruct (_ =? 0); do 2 (split; [reflexivity|]); reflexivity.
  Qed.

  (** Transactions. *)
  Variable tget : A -> token_table.
  Variable tset : token_table -> A -> A.
  Variable input_cb : bytes -> token_id -> N -> A -> res * A.

  Lemma data_finished_sim : forall f h h' a, fsim (data_inputs_finished tget (mk_fs f h a)) (data_inputs_finished tget (mk_fs f h' a)).
  Proof. intros. do 2 (split; [reflexivity|]); reflexivity. Qed.
  Lemma input_finished_sim : forall f h h' a, fsim (input_finished tget (mk_fs f h a)) (input_finished tget (mk_fs f h' a)).
  Proof.
    intros. unfold input_finished. cbn [fs_full]. destruct (_ =? 0); [|do 2 (split; [reflexivity|]); reflexivity].
    unfold fs_with_full, fs_feed, fs_with_state, fs_with_full. cbn [fs_full fs_hash fs_cb full_set_inputs full_set_state fl_data_inputs_count].
    destruct (fl_data_inputs_count f =? 0); [apply data_finished_sim|do 2 (split; [reflexivity|]); reflexivity].
  Qed.
  Lemma output_finished_sim : forall f h h' (a : A), fsim (output_finished (mk_fs f h a)) (output_finished (mk_fs f h' a)).
  Proof. intros. unfold output_finished. cbn [fs_full]. destruct (_ =? 0); do 2 (split; [reflexivity|]); reflexivity. Qed.
  Lemma full_init_sim : forall i d o t h h' a, fsim (full_init tget tset i d o t h a) (full_init tget tset i d o t h' a).
  Proof.
    intros. unfold full_init. destruct (i =? 0); [do 2 (split; [reflexivity|]); reflexivity|]. destruct (o =? 0); [do 2 (split; [reflexivity|]); reflexivity|]. cbv zeta.
    destruct (table_init t (tget a)) as [r l]. destruct r; try (do 2 (split; [reflexivity|]); reflexivity). destruct (t =? 0); do 2 (split; [reflexivity|]); reflexivity.
  Qed.
  Lemma full_add_tokens_sim : forall f h h' a l, fsim (full_add_tokens tget tset (mk_fs f h a) l) (full_add_tokens tget tset (mk_fs f h' a) l).
  Proof.
    intros. unfold full_add_tokens. cbn [fs_full fs_cb fs_hash]. destruct (fl_state f); try (do 2 (split; [reflexivity|]); reflexivity).
    destruct (table_add (fl_distinct f) l (tget a)) as [r t]. destruct r; do 2 (split; [reflexivity|]); reflexivity.
  Qed.
  Lemma full_add_input_sim : forall f h h' (a : A) id n e, fsim (full_add_input (mk_fs f h a) id n e) (full_add_input (mk_fs f h' a) id n e).
  Proof.
    intros. unfold full_add_input. cbn [fs_full fs_cb fs_hash]. destruct (fl_state f); try (do 2 (split; [reflexivity|]); reflexivity).
    destruct (fl_union f); try (do 2 (split; [reflexivity|]); reflexivity). destruct (in_state c); try (do 2 (split; [reflexivity|]); reflexivity).
    destruct (_ =? 0); [do 2 (split; [reflexivity|]); reflexivity|]. destruct (input_init id n e) as [r c']. destruct (res_pass r); do 2 (split; [reflexivity|]); reflexivity.
  Qed.
  Lemma set_input_callback_sim : forall f h h' (a : A), fsim (full_set_input_callback (mk_fs f h a)) (full_set_input_callback (mk_fs f h' a)).
  Proof.
    intros. unfold full_set_input_callback. cbn [fs_full]. destruct (fl_state f); try (do 2 (split; [reflexivity|]); reflexivity).
    destruct (fl_union f); do 2 (split; [reflexivity|]); reflexivity.
  Qed.
  Lemma on_input_sim : forall call k f h h' a,
    (forall ocb c h h' a, isim (call ocb (mk_ins c h a)) (call ocb (mk_ins c h' a))) -> (forall f h h' a, fsim (k (mk_fs f h a)) (k (mk_fs f h' a))) ->
    fsim (on_input input_cb (mk_fs f h a) call k) (on_input input_cb (mk_fs f h' a) call k).
  Proof.
    intros call k f h h' a Hc Hk. unfold on_input. cbn [fs_full fs_cb fs_hash]. destruct (fl_union f) as [|c set|b set]; try (do 2 (split; [reflexivity|]); reflexivity).
    destruct (Hc (if set then Some input_cb else None) c h h' a) as (K1 & K2 & K3).
    destruct (call (if set then Some input_cb else None) (mk_ins c h a)) as [r1 [c1 h1 a1]]. destruct (call (if set then Some input_cb else None) (mk_ins c h' a)) as [r2 [c2 h2 a2]].
    cbn [fst snd is_in is_cb is_hash] in *. subst r2 c2 a2. destruct r1; try (do 2 (split; [reflexivity|]); reflexivity). apply Hk.
  Qed.
  Lemma full_input_tokens_sim : forall f h h' a id i l,
    fsim (full_add_input_tokens tget input_cb (mk_fs f h a) id i l) (full_add_input_tokens tget input_cb (mk_fs f h' a) id i l).
  Proof.
    intros. unfold full_add_input_tokens. cbn [fs_full]. destruct (fl_state f); try (do 2 (split; [reflexivity|]); reflexivity). apply on_input_sim.
    - intros. apply input_tokens_sim.
    - clear. intros. cbn [fs_full]. destruct (fl_union f); try (do 2 (split; [reflexivity|]); reflexivity).
      destruct (in_state c); try (do 2 (split; [reflexivity|]); reflexivity). apply input_finished_sim.
  Qed.
  Lemma full_ext_sim : forall f h h' a l,
    fsim (full_add_input_context_extension tget input_cb (mk_fs f h a) l) (full_add_input_context_extension tget input_cb (mk_fs f h' a) l).
  Proof.
    intros. unfold full_add_input_context_extension. cbn [fs_full]. destruct (fl_state f); try (do 2 (split; [reflexivity|]); reflexivity). apply on_input_sim.
    - intros. apply input_ext_sim.
    - intros. apply input_finished_sim.
  Qed.
  Lemma data_loop_sim : forall fuel f h h' (a : A) l, fsim (data_inputs_loop fuel (mk_fs f h a) l) (data_inputs_loop fuel (mk_fs f h' a) l).
  Proof.
    induction fuel as [|k IH]; intros; cbn [data_inputs_loop]; [do 2 (split; [reflexivity|]); reflexivity|].
    destruct l as [|x l]; [do 2 (split; [reflexivity|]); reflexivity|]. cbn [fs_full]. destruct (_ =? 0); [do 2 (split; [reflexivity|]); reflexivity|].
    destruct (read_bytes ERGO_ID_LEN (x :: l)) as [[i r]|]; [|do 2 (split; [reflexivity|]); reflexivity]. apply IH.
  Qed.
  Lemma full_data_sim : forall f h h' a l, fsim (full_add_data_inputs tget (mk_fs f h a) l) (full_add_data_inputs tget (mk_fs f h' a) l).
  Proof.
    intros. unfold full_add_data_inputs. cbn [fs_full]. destruct (fl_state f); try (do 2 (split; [reflexivity|]); reflexivity).
    destruct (data_loop_sim (S (length l)) f h h' a l) as (K1 & K2 & K3).
    destruct (data_inputs_loop (S (length l)) (mk_fs f h a) l) as [r1 [f1 h1 a1]]. destruct (data_inputs_loop (S (length l)) (mk_fs f h' a) l) as [r2 [f2 h2 a2]].
    cbn [fst snd fs_full fs_cb] in *. subst r2 f2 a2. destruct r1; try (do 2 (split; [reflexivity|]); reflexivity).
    destruct (_ =? 0); [apply data_finished_sim|do 2 (split; [reflexivity|]); reflexivity].
  Qed.
  Lemma full_add_box_sim : forall f h h' (a : A) v t ht n rg, fsim (full_add_box (mk_fs f h a) v t ht n rg) (full_add_box (mk_fs f h' a) v t ht n rg).
  Proof.
    intros. unfold full_add_box. cbn [fs_full fs_cb fs_hash]. destruct (fl_state f); try (do 2 (split; [reflexivity|]); reflexivity).
    destruct (_ =? 0); [do 2 (split; [reflexivity|]); reflexivity|].
    destruct (box_init_sim v t ht n rg h h' a) as (K1 & K2 & K3). destruct (box_init v t ht n rg h a) as [r1 [b1 h1 a1]]. destruct (box_init v t ht n rg h' a) as [r2 [b2 h2 a2]].
    cbn [fst snd bs_box bs_cb bs_hash] in *. subst r2 b2 a2. destruct (res_pass r1); do 2 (split; [reflexivity|]); reflexivity.
  Qed.
  Lemma set_box_callbacks_sim : forall f h h' (a : A), fsim (full_set_box_callbacks (mk_fs f h a)) (full_set_box_callbacks (mk_fs f h' a)).
  Proof.
    intros. unfold full_set_box_callbacks. cbn [fs_full]. destruct (fl_state f); try (do 2 (split; [reflexivity|]); reflexivity).
    destruct (fl_union f); do 2 (split; [reflexivity|]); reflexivity.
  Qed.
End Blind.

Section Calls.
  Context {A : Type}.
  Variable tget : A -> token_table.
  Variable cb : box_callbacks A.

  Lemma on_box_sim : forall call call' more f h h' a,
    (forall cb b h h' a, bsim (call cb (mk_bs b h a)) (call' cb (mk_bs b h' a))) ->
    fsim (on_box cb (mk_fs f h a) call more) (on_box cb (mk_fs f h' a) call' more).
  Proof.
    intros call call' more f h h' a Hc. unfold on_box. cbn [fs_full fs_cb fs_hash]. destruct (fl_union f) as [|c set|b set]; try (do 2 (split; [reflexivity|]); reflexivity).
    destruct (Hc (if set then cb else no_box_callbacks) b h h' a) as (K1 & K2 & K3).
    destruct (call (if set then cb else no_box_callbacks) (mk_bs b h a)) as [r1 [b1 h1 a1]]. destruct (call' (if set then cb else no_box_callbacks) (mk_bs b h' a)) as [r2 [b2 h2 a2]].
    cbn [fst snd bs_box bs_cb bs_hash] in *. subst r2 b2 a2. cbv zeta.
    destruct r1; try (do 2 (split; [reflexivity|]); reflexivity); [|destruct more; [do 2 (split; [reflexivity|]); reflexivity|]];
      (destruct (bx_state b1); try (do 2 (split; [reflexivity|]); reflexivity); apply output_finished_sim).
  Qed.
  Lemma full_tree_sim : forall f h h' a l, fsim (full_add_box_ergo_tree cb (mk_fs f h a) l) (full_add_box_ergo_tree cb (mk_fs f h' a) l).
  Proof. intros. unfold full_add_box_ergo_tree. cbn [fs_full]. destruct (fl_state f); try (do 2 (split; [reflexivity|]); reflexivity). apply on_box_sim. intros. apply add_tree_sim. Qed.
  Lemma full_fee_sim : forall f h h' a m, fsim (full_add_box_miners_fee_tree cb (mk_fs f h a) m) (full_add_box_miners_fee_tree cb (mk_fs f h' a) m).
  Proof. intros. unfold full_add_box_miners_fee_tree. cbn [fs_full]. destruct (fl_state f); try (do 2 (split; [reflexivity|]); reflexivity). apply on_box_sim. intros. apply add_fee_sim. Qed.
  Lemma full_change_sim : forall f h h' a k k', fsim (full_add_box_change_tree cb (mk_fs f h a) k) (full_add_box_change_tree cb (mk_fs f h' a) k').
  Proof. intros. unfold full_add_box_change_tree. cbn [fs_full]. destruct (fl_state f); try (do 2 (split; [reflexivity|]); reflexivity). apply on_box_sim. intros. apply add_change_sim. Qed.
  Lemma full_tokens_sim : forall f h h' a l, fsim (full_add_box_tokens tget cb (mk_fs f h a) l) (full_add_box_tokens tget cb (mk_fs f h' a) l).
  Proof. intros. unfold full_add_box_tokens. cbn [fs_full]. destruct (fl_state f); try (do 2 (split; [reflexivity|]); reflexivity). apply on_box_sim. intros. apply add_tokens_sim. Qed.
  Lemma full_registers_sim : forall f h h' a l, fsim (full_add_box_registers cb (mk_fs f h a) l) (full_add_box_registers cb (mk_fs f h' a) l).
  Proof.
    intros. unfold full_add_box_registers. cbn [fs_full fs_hash fs_cb]. destruct (fl_state f); try (do 2 (split; [reflexivity|]); reflexivity).
    destruct (fl_union f) as [|c set|b set]; try (do 2 (split; [reflexivity|]); reflexivity).
    destruct (add_registers_sim (if set then cb else no_box_callbacks) b h h' a l) as (K1 & K2 & K3).
    destruct (box_add_registers (if set then cb else no_box_callbacks) (mk_bs b h a) l) as [r1 [b1 h1 a1]].
    destruct (box_add_registers (if set then cb else no_box_callbacks) (mk_bs b h' a) l) as [r2 [b2 h2 a2]].
    cbn [fst snd bs_box bs_cb bs_hash] in *. subst r2 b2 a2. destruct r1; try (do 2 (split; [reflexivity|]); reflexivity). apply output_finished_sim.
  Qed.
End Calls.

(** The operation: equal except for the nonce and the hash stream. *)
Definition op_sim (c c' : p2pk) : Prop := exists k h, c' = mk_p2pk (op_state_of c) k (op_path c) h (op_network c) (op_amounts c) (op_union_of c).
Definition out_sim (x y : out p2pk) : Prop :=
  match x, y with Ok c, Ok c' => op_sim c c' | Fail s, Fail s' => s = s' | _, _ => False end.

Lemma op_sim_refl : forall c, op_sim c c.
Proof. intros [st k p h n a u]. exists k, h. reflexivity. Qed.
Lemma out_sim_refl : forall x, out_sim x x.
Proof. intros [c|s]; [apply op_sim_refl|reflexivity]. Qed.

Lemma tx_call_sim : forall c c' call call', op_sim c c' -> (forall f h h' a, fsim (call (mk_fs f h a)) (call' (mk_fs f h' a))) -> out_sim (tx_call c call) (tx_call c' call').
Proof.
  intros c c' call call' (ky & h & ->) Hc. unfold tx_call. cbn [op_union_of]. destruct (op_union_of c) as [t|t|]; try reflexivity.
  unfold op_fs. cbn [op_hash op_amounts]. unfold cbctx in *. destruct (Hc (tx_full t) (op_hash c) h (op_amounts c, tx_output t)) as (K1 & K2 & K3).
  destruct (call (mk_fs (tx_full t) (op_hash c) (op_amounts c, tx_output t))) as [r1 [f1 h1 a1]]. destruct (call' (mk_fs (tx_full t) h (op_amounts c, tx_output t))) as [r2 [f2 h2 a2]].
  cbn [fst snd fs_full fs_cb] in *. subst r2 f2 a2. destruct (tx_result r1); [reflexivity|]. exists ky, h2. reflexivity.
Qed.
Lemma bind_sim : forall x y k k', out_sim x y -> (forall c c', op_sim c c' -> out_sim (k c) (k' c')) -> out_sim (bind x k) (bind y k').
Proof. intros [c|s] [c'|s'] k k' H K; cbn [out_sim bind] in *; [apply K, H|destruct H|destruct H|exact H]. Qed.

Section Operation.
  Variables E E' : env.
  Hypothesis Bl : e_blake E = e_blake E'.

  Lemma box_cb_same : op_box_cb E = op_box_cb E'.
  Proof. unfold op_box_cb, p2pk_output_finished_cb. rewrite Bl. reflexivity. Qed.
  Lemma output_call_sim : forall c c' call, op_sim c c' -> out_sim (output_call c call) (output_call c' call).
  Proof.
    intros c c' call (ky & h & ->). unfold output_call. cbn [op_union_of]. destruct (op_union_of c) as [t|t|]; try reflexivity. destruct (tx_output t) as [o|]; [|reflexivity].
    destruct (call o) as [s o']. destruct s; try reflexivity. exists ky, h. reflexivity.
  Qed.
  Lemma finished_sim : forall c c', op_sim c c' -> out_sim (check_tx_finished c) (check_tx_finished c').
  Proof.
    intros c c' (ky & h & ->). unfold check_tx_finished. cbn [op_union_of]. destruct (op_union_of c) as [t|t|] eqn:U; try reflexivity.
    destruct (fl_state (tx_full t)); cbn [out_sim]; exists ky, h; unfold op_set_state; cbn; rewrite ?U; reflexivity.
  Qed.

  Ltac states c := cbn [op_state_of]; destruct (op_state_of c) eqn:?; try reflexivity.

  Lemma start_tx_sim : forall c c' i d o t, op_sim c c' -> out_sim (p2pk_start_tx c i d o t) (p2pk_start_tx c' i d o t).
  Proof.
    intros c c' i d o t (ky & h & ->). unfold p2pk_start_tx. states c. cbn [op_hash op_amounts op_key op_path op_network].
    destruct (full_init_sim op_tget op_tset i d o t (op_hash c) h (op_amounts c, None)) as (K1 & K2 & K3).
    destruct (full_init op_tget op_tset i d o t (op_hash c) (op_amounts c, None)) as [r1 [f1 h1 a1]]. destruct (full_init op_tget op_tset i d o t h (op_amounts c, None)) as [r2 [f2 h2 a2]].
    cbn [fst snd fs_full fs_cb fs_hash] in *. subst r2 f2 a2. destruct (tx_result r1); [reflexivity|]. exists ky, h2. reflexivity.
  Qed.
  Lemma p_add_tokens_sim : forall c c' l, op_sim c c' -> out_sim (p2pk_add_tokens c l) (p2pk_add_tokens c' l).
  Proof. intros c c' l S. pose proof S as (ky & h & ->). unfold p2pk_add_tokens. states c. apply tx_call_sim; [exact S|]. intros. apply full_add_tokens_sim. Qed.
  Lemma p_add_input_sim : forall c c' id v n e, op_sim c c' -> out_sim (p2pk_add_input c id v n e) (p2pk_add_input c' id v n e).
  Proof.
    intros c c' id v n e S. pose proof S as (ky & h & ->). unfold p2pk_add_input. states c;
      (apply bind_sim; [apply tx_call_sim; [exact S|intros; apply full_add_input_sim]|]; clear; intros c c' S;
       apply bind_sim; [apply tx_call_sim; [exact S|intros; apply set_input_callback_sim]|]; clear; intros c c' (ky & h & ->);
       cbn [op_amounts]; destruct (amounts_add_input (op_amounts c) v) as [s a]; destruct s; try reflexivity; exists ky, h; reflexivity).
  Qed.
  Lemma p_input_tokens_sim : forall c c' id i l, op_sim c c' -> out_sim (p2pk_add_input_tokens c id i l) (p2pk_add_input_tokens c' id i l).
  Proof. intros c c' id i l S. pose proof S as (ky & h & ->). unfold p2pk_add_input_tokens. states c. apply tx_call_sim; [exact S|]. intros. apply full_input_tokens_sim. Qed.
  Lemma p_ext_sim : forall c c' l, op_sim c c' -> out_sim (p2pk_add_input_context_extension c l) (p2pk_add_input_context_extension c' l).
  Proof. intros c c' l S. pose proof S as (ky & h & ->). unfold p2pk_add_input_context_extension. states c. apply tx_call_sim; [exact S|]. intros. apply full_ext_sim. Qed.
  Lemma p_data_sim : forall c c' l, op_sim c c' -> out_sim (p2pk_add_data_inputs c l) (p2pk_add_data_inputs c' l).
  Proof. intros c c' l S. pose proof S as (ky & h & ->). unfold p2pk_add_data_inputs. states c. apply tx_call_sim; [exact S|]. intros. apply full_data_sim. Qed.
  Lemma p_add_output_sim : forall c c' v t ht n r, op_sim c c' -> out_sim (p2pk_add_output c v t ht n r) (p2pk_add_output c' v t ht n r).
  Proof.
    intros c c' v t ht n r S. pose proof S as (ky & h & ->). unfold p2pk_add_output. states c;
      (apply bind_sim; [apply tx_call_sim; [exact S|intros; apply full_add_box_sim]|]; clear; intros c c' S;
       apply bind_sim; [apply tx_call_sim; [exact S|intros; apply set_box_callbacks_sim]|]; clear; intros c c' (ky & h & ->);
       cbn [op_union_of]; destruct (op_union_of c); try reflexivity; exists ky, h; reflexivity).
  Qed.
  Lemma p_tree_sim : forall c c' l, op_sim c c' -> out_sim (p2pk_add_output_tree_chunk E c l) (p2pk_add_output_tree_chunk E' c' l).
  Proof.
    intros c c' l (ky & h & ->). unfold p2pk_add_output_tree_chunk. states c. rewrite <- box_cb_same, Bl. cbn [op_union_of]. destruct (op_union_of c) as [t|t|]; try reflexivity.
    unfold op_fs. cbn [op_hash op_amounts].
    set (x := full_add_box_ergo_tree _ (mk_fs _ (op_hash c) _) _). set (y := full_add_box_ergo_tree _ (mk_fs _ h _) _).
    assert (K : fsim x y) by apply full_tree_sim. clearbody x y. destruct x as [r1 [f1 h1 a1]], y as [r2 [f2 h2 a2]], K as (K1 & K2 & K3).
    cbn [fst snd fs_full fs_cb fs_hash] in *. subst r2 f2 a2. cbv zeta.
    destruct r1; try reflexivity; (apply bind_sim; [apply output_call_sim; exists ky, h2; unfold op_put; cbn; congruence|intros; apply finished_sim; assumption]).
  Qed.
  Lemma p_fee_sim : forall c c', op_sim c c' -> out_sim (p2pk_add_output_tree_fee E c) (p2pk_add_output_tree_fee E' c').
  Proof.
    intros c c' S. pose proof S as (ky & h & ->). unfold p2pk_add_output_tree_fee. states c. rewrite <- box_cb_same, Bl. cbn [op_network].
    apply bind_sim; [apply tx_call_sim; [exact S|intros; apply full_fee_sim]|]. intros c1 c1' S1.
    apply bind_sim; [apply output_call_sim; exact S1|]. intros; apply finished_sim; assumption.
  Qed.
  Lemma p_change_sim : forall c c' p k k', op_sim c c' -> out_sim (p2pk_add_output_tree_change E c p k) (p2pk_add_output_tree_change E' c' p k').
  Proof.
    intros c c' p k k' S. pose proof S as (ky & h & ->). unfold p2pk_add_output_tree_change. states c. rewrite <- box_cb_same, Bl.
    apply bind_sim; [apply tx_call_sim; [exact S|intros; apply full_change_sim]|]. intros c1 c1' S1.
    apply bind_sim; [apply output_call_sim; exact S1|]. intros; apply finished_sim; assumption.
  Qed.
  Lemma p_tokens_sim : forall c c' l, op_sim c c' -> out_sim (p2pk_add_output_tokens E c l) (p2pk_add_output_tokens E' c' l).
  Proof.
    intros c c' l S. pose proof S as (ky & h & ->). unfold p2pk_add_output_tokens. states c. rewrite <- box_cb_same.
    apply bind_sim; [apply tx_call_sim; [exact S|intros; apply full_tokens_sim]|]. intros; apply finished_sim; assumption.
  Qed.
  Lemma p_registers_sim : forall c c' l, op_sim c c' -> out_sim (p2pk_add_output_registers E c l) (p2pk_add_output_registers E' c' l).
  Proof.
    intros c c' l S. pose proof S as (ky & h & ->). unfold p2pk_add_output_registers. states c. rewrite <- box_cb_same.
    apply bind_sim; [apply tx_call_sim; [exact S|intros; apply full_registers_sim]|]. intros; apply finished_sim; assumption.
  Qed.
  Lemma should_show_sim : forall c c', op_sim c c' -> p2pk_should_show_output c = p2pk_should_show_output c'.
  Proof. intros c c' (ky & h & ->). reflexivity. Qed.
  Definition shown_sim {A} (x y : out (A * p2pk)) : Prop :=
    match x, y with Ok (a, c), Ok (a', c') => a = a' /\ op_sim c c' | Fail s, Fail s' => s = s' | _, _ => False end.
  Lemma token_and_path_sim : forall c c' t k, op_sim c c' -> shown_sim (p2pk_show_token_and_path c t k) (p2pk_show_token_and_path c' t k).
  Proof.
    intros c c' t k (ky & h & ->). unfold p2pk_show_token_and_path. cbn [op_path]. destruct (ui_bip32_path_screen _ _ _ _) as [s|]; [|reflexivity].
    destruct (add_operation_approve_screens _ _ _) as [f|s']; [|reflexivity]. cbn [bind]. destruct (display f) as [g|s']; [|reflexivity]. cbn [bind].
    split; [reflexivity|]. exists ky, h. reflexivity.
  Qed.
  Lemma output_confirm_sim : forall c c', op_sim c c' -> shown_sim (p2pk_show_output_confirm_screen c) (p2pk_show_output_confirm_screen c').
  Proof.
    intros c c' (ky & h & ->). unfold p2pk_show_output_confirm_screen. cbn [op_union_of]. states c;
      (destruct (op_union_of c) as [t|t|]; try reflexivity; destruct (tx_output t) as [o|]; [|reflexivity];
       destruct (add_output_screens [] o) as [fd|s]; [|reflexivity]; cbn [bind]; destruct (display (fst fd)) as [g|s]; [|reflexivity]; cbn [bind];
       split; [reflexivity|]; exists ky, h; unfold op_set_union; cbn; congruence).
  Qed.
  Lemma confirm_sim : forall c c', op_sim c c' -> shown_sim (p2pk_show_confirm_screen c) (p2pk_show_confirm_screen c').
  Proof.
    intros c c' (ky & h & ->). unfold p2pk_show_confirm_screen. states c. cbn [op_amounts].
    destruct (add_transaction_screens [] (op_amounts c) 1) as [fd|s]; [|reflexivity]. cbn [bind]. destruct (display (fst fd)) as [g|s]; [|reflexivity]. cbn [bind].
    split; [reflexivity|]. exists ky, h. reflexivity.
  Qed.
End Operation.
