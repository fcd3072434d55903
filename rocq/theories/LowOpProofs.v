(** The signing operation, the addresses and the nonce loop with failing calls either do
    what the functions of OutputInfo, P2pkOp, Address, Schnorr do, or fail with a status
    word of [fault_status]. *)
From Coq Require Import String.
From Verif Require Import Lib Base CodecProofs Env Bip32 Gve RwBuffer SpecBuffer RwBufferProofs Address ErgoTree Schnorr TxTable TxBox TxInput TxFull
  Amounts OutputInfo Format UiFlow P2pkOp App Fault LowTx LowOp SpecFault LowTxProofs.

#[local] Arguments N.eqb : simpl never.
#[local] Arguments N.ltb : simpl never.
#[local] Arguments N.leb : simpl never.
#[local] Arguments N.sub : simpl never.
#[local] Arguments blen : simpl never.
#[local] Arguments app : simpl never.

(** * Buffers *)
Lemma blen_concat_cons : forall (l : bytes) ls, blen (concat (l :: ls)) = blen l + blen (concat ls).
Proof. intros l ls. cbn [concat]. apply blen_app. Qed.

Lemma write_all_ok : forall ls b, buffer_valid b -> blen (concat ls) <= rb_cap b - rb_wpos b ->
  exists b', write_all b ls = B_ok b' tt /\ buffer_valid b' /\ rb_off b' = rb_off b /\
    rb_wpos b' = rb_wpos b + blen (concat ls) /\ rb_cap b' = rb_cap b /\
    length (rb_mem b') = length (rb_mem b) /\ unread b' = unread b ++ concat ls.
Proof.
  induction ls as [|l ls IH]; intros b Hv Hl.
  - exists b. cbn [write_all concat]. rewrite app_nil_r. change (blen []) with 0. rewrite N.add_0_r.
    split; [reflexivity|]. split; [assumption|]. auto.
  - rewrite blen_concat_cons in Hl. pose proof Hv as (H1 & H2 & H3 & H4). cbn [write_all].
    pose proof (write_bytes_cases b l Hv ltac:(lia)) as W. replace (blen l <=? rb_cap b - rb_wpos b) with true in W by lia.
    destruct W as (b1 & -> & Hb & Ho & Hw & Hcap & Hm & Hu & _).
    destruct (IH b1 Hb ltac:(lia)) as (b' & -> & Hb' & Ho' & Hw' & Hcap' & Hm' & Hu'). exists b'. split; [reflexivity|].
    split; [assumption|]. rewrite blen_concat_cons. split; [congruence|]. split; [lia|]. split; [congruence|]. split; [congruence|].
    rewrite Hu', Hu. cbn [concat]. rewrite app_assoc. reflexivity.
Qed.
Lemma written_unread : forall b, buffer_valid b -> written b = Some (unread b).
Proof.
  intros b Hv. unfold written. rewrite data_len_valid by assumption. pose proof Hv as (H1 & H2 & H3 & H4).
  rewrite mem_get_ok by lia. reflexivity.
Qed.
Lemma init_valid : forall m n, n <= blen m -> n < 2 ^ 32 -> buffer_valid (rw_buffer_init m n 0) /\ unread (rw_buffer_init m n 0) = [].
Proof.
  intros m n H Hn. split; [|reflexivity]. unfold buffer_valid, rw_buffer_init. cbn. repeat split; try lia.
Qed.
Lemma array_write : forall F n ls, stack_ok F -> n < 2 ^ 32 -> blen (concat ls) <= n ->
  exists b, write_all (array_buffer F n) ls = B_ok b tt /\ buffer_valid b /\ rb_off b = 0 /\ rb_wpos b = blen (concat ls) /\
    rb_cap b = n /\ blen (rb_mem b) = n /\ unread b = concat ls /\ written b = Some (concat ls).
Proof.
  intros F n ls HF Hn Hl. destruct (init_valid (f_stack F n) n) as [Hv Hu]; [rewrite HF; lia|assumption|].
  destruct (write_all_ok ls _ Hv) as (b & E & Hb & Ho & Hw & Hc & Hm & Hr); [cbn; lia|].
  exists b. unfold array_buffer. split; [exact E|]. split; [exact Hb|]. rewrite Hu in Hr. change (unread b = concat ls) in Hr.
  split; [exact Ho|]. split; [rewrite Hw; cbn; lia|]. split; [exact Hc|].
  split; [unfold blen in *; rewrite Hm; cbn [rw_buffer_init rb_mem]; apply HF|]. split; [exact Hr|].
  rewrite written_unread by assumption. f_equal. exact Hr.
Qed.
Lemma full_memory : forall b, buffer_valid b -> rb_off b = 0 -> rb_wpos b = blen (rb_mem b) -> rb_mem b = unread b.
Proof.
  intros b Hv Ho Hw. unfold unread. rewrite Ho, Hw, N.sub_0_r. cbn [N.to_nat skipn]. unfold blen. rewrite Nat2N.id. symmetry. apply firstn_all.
Qed.

(** * Outcomes *)
Definition simo {T} (F : faults) (x y : out T) : Prop :=
  x = y \/ (call_failed F /\ exists s, x = Fail s /\ fault_status s).
Definition simw {T} (F : faults) (x y : sw * T) : Prop :=
  x = y \/ (call_failed F /\ fst x = SW_HASHER_ERROR).
Lemma simo_refl : forall T F (x : out T), simo F x x.
Proof. left. reflexivity. Qed.
Lemma simo_fail : forall T F (y : out T) s, call_failed F -> fault_status s -> simo F (Fail s) y.
Proof. intros T F y s Hf Hs. right. split; [assumption|]. exists s. auto. Qed.
Lemma simo_bind : forall T U F (x y : out T) (f g : T -> out U), simo F x y -> (forall a, y = Ok a -> simo F (f a) (g a)) ->
  simo F (bind x f) (bind y g).
Proof.
  intros T U F x y f g [->|(Hf & s & -> & Hs)] H.
  - destruct y; [apply H; reflexivity|apply simo_refl].
  - cbn [bind]. apply simo_fail; assumption.
Qed.
Lemma st_hasher : fault_status SW_HASHER_ERROR. Proof. left. reflexivity. Qed.
Lemma st_crypto : fault_status SW_INTERNAL_CRYPTO_ERROR. Proof. right. left. reflexivity. Qed.
Lemma st_address : fault_status SW_ADDRESS_GENERATION_FAILED. Proof. right. right. left. reflexivity. Qed.
Lemma st_schnorr : fault_status SW_SCHNORR_SIGNING_FAILED. Proof. right. right. right. reflexivity. Qed.

Section LowOpProofs.
  Variable E : env.
  Variable F : faults.
  Hypothesis HF : stack_ok F.

  (** * Output info *)
  Lemma maybe_finished_sim : forall c, simr F (low_maybe_finished E F c) (maybe_finished (e_blake E) c).
  Proof.
    intros c. unfold low_maybe_finished, maybe_finished. destruct (output_info_is_finished c); [|apply simr_refl].
    destruct (oi_type c); try apply simr_refl. destruct (f_final F S_SCRIPT _) eqn:H; [|apply simr_refl].
    right. split; [eapply cf_final; exact H|reflexivity].
  Qed.
  Lemma maybe_finished_sw_sim : forall c, simw F (low_maybe_finished_sw E F c) (maybe_finished_sw (e_blake E) c).
  Proof.
    intros c. unfold low_maybe_finished_sw, maybe_finished_sw. destruct (maybe_finished_sim c) as [->|[Hf Hr]]; [left; reflexivity|].
    destruct (low_maybe_finished E F c) as [r c']. cbn in Hr. subst r. right. split; [assumption|reflexivity].
  Qed.
  Lemma set_bip32_sim : forall c p, simw F (low_output_info_set_bip32 E F c p) (output_info_set_bip32 (e_blake E) c p).
  Proof. intros c p. unfold low_output_info_set_bip32, output_info_set_bip32. destruct (oi_type c); (left; reflexivity) || apply maybe_finished_sw_sim. Qed.
  Lemma set_fee_sim : forall c, simw F (low_output_info_set_fee E F c) (output_info_set_fee (e_blake E) c).
  Proof. intros c. unfold low_output_info_set_fee, output_info_set_fee. destruct (oi_type c); (left; reflexivity) || apply maybe_finished_sw_sim. Qed.
  Lemma script_chunk_sim : forall c chunk fin,
    simw F (low_script_chunk E F c chunk fin)
           (maybe_finished_sw (e_blake E) match oi_type c with
               | OT_SCRIPT t => let c := oi_set_type c (OT_SCRIPT (t ++ chunk)) in if fin then oi_set_tree_set c else c
               | _ => c
               end).
  Proof.
    intros c chunk fin. unfold low_script_chunk. destruct (oi_type c); try apply maybe_finished_sw_sim. unfold update.
    destruct (f_update F S_SCRIPT tree_so_far chunk) eqn:H; [|apply maybe_finished_sw_sim].
    right. split; [eapply cf_update; exact H|reflexivity].
  Qed.
  Lemma add_chunk_sim : forall c chunk fin,
    simw F (low_output_info_add_tree_chunk E F c chunk fin) (output_info_add_tree_chunk (e_blake E) c chunk fin).
  Proof.
    intros c chunk fin. unfold low_output_info_add_tree_chunk, output_info_add_tree_chunk.
    destruct (oi_type c) eqn:T; try (left; reflexivity); destruct (oi_tree_set c); try (left; reflexivity).
    - unfold low_classify. cbv zeta. destruct (oi_type (classify_first_chunk c chunk fin)) eqn:K; try (pose proof (script_chunk_sim (classify_first_chunk c chunk fin) chunk fin) as S1; rewrite K in S1; exact S1).
      destruct (f_init F) eqn:Hi; [right; split; [apply cf_init; assumption|reflexivity]|].
      pose proof (script_chunk_sim (classify_first_chunk c chunk fin) chunk fin) as S1; rewrite K in S1; exact S1.
    - cbv zeta. rewrite ?T. pose proof (script_chunk_sim c chunk fin) as S1. rewrite T in S1. exact S1.
  Qed.
  Lemma finished_cb_sim : forall t a, simr F (low_output_finished_cb E F t a) (p2pk_output_finished_cb E t a).
  Proof.
    intros t [a [o|]]; unfold low_output_finished_cb, p2pk_output_finished_cb; cbn [fst snd]; [|apply simr_refl].
    unfold low_output_info_set_box_finished, output_info_set_box_finished.
    destruct (maybe_finished_sim (oi_set_box_finished o)) as [->|[Hf Hr]]; [apply simr_refl|].
    destruct (low_maybe_finished E F _) as [r c']. cbn in Hr. subst r. right. split; [assumption|reflexivity].
  Qed.

  (** * Nonces, keys, addresses *)
  Lemma zero_round : forall secret, schnorr_round E secret (repeat 0 32) = None.
  Proof.
    intros secret. unfold schnorr_round. destruct (scalar_rejected secret); [reflexivity|]. destruct (e_mulG E secret); reflexivity.
  Qed.
  Lemma loop_redrawn : forall secret rounds i nonces, exists nonces', redrawn nonces nonces' /\ (nonces' = nonces \/ call_failed F) /\
    low_schnorr_init_loop E F secret i rounds nonces = schnorr_init_loop E secret rounds nonces'.
  Proof.
    intros secret rounds. induction rounds as [|k IH]; intros i nonces.
    - exists nonces. split; [apply rd_same|]. split; [left; reflexivity|reflexivity].
    - cbn [low_schnorr_init_loop]. destruct (f_round F i) as [[|]|] eqn:Hr.
      + destruct (IH (S i) (tl nonces)) as (l & Hl & _ & He). exists (repeat 0 32 :: l). split; [|split; [right; eapply cf_round; exact Hr|]].
        * destruct nonces as [|x t]; [apply rd_skipped; exact Hl|apply rd_thrown; exact Hl].
        * cbn [schnorr_init_loop hd tl]. rewrite zero_round. exact He.
      + destruct (IH (S i) nonces) as (l & Hl & _ & He). exists (repeat 0 32 :: l). split; [apply rd_skipped; exact Hl|].
        split; [right; eapply cf_round; exact Hr|]. cbn [schnorr_init_loop hd tl]. rewrite zero_round. exact He.
      + destruct (schnorr_round E secret (hd (repeat 0 32) nonces)) as [r|] eqn:R.
        * exists nonces. split; [apply rd_same|]. split; [left; reflexivity|]. cbn [schnorr_init_loop]. rewrite R. reflexivity.
        * destruct (IH (S i) (tl nonces)) as (l & Hl & [Hc|Hc] & He).
          { exists nonces. split; [apply rd_same|]. split; [left; reflexivity|]. cbn [schnorr_init_loop]. rewrite R, He, Hc. reflexivity. }
          destruct nonces as [|x t].
          -- exists (repeat 0 32 :: l). split; [apply rd_skipped; exact Hl|]. split; [right; exact Hc|]. cbn [schnorr_init_loop hd tl]. rewrite zero_round. exact He.
          -- exists (x :: l). split; [apply rd_keep; exact Hl|]. split; [right; exact Hc|]. cbn [schnorr_init_loop hd tl] in *. rewrite R. exact He.
  Qed.

  Lemma key_sim : forall p, low_generate_public_key E F p = generate_public_key E p \/
    (call_failed F /\ low_generate_public_key E F p = None).
  Proof.
    intros p. unfold low_generate_public_key, low_private_key, generate_public_key. destruct (f_derive F) eqn:H1.
    - right. split; [apply cf_derive; assumption|reflexivity].
    - destruct (e_derive E p) as [[priv chain]|]; [|left; reflexivity]. destruct (f_pub F) eqn:H2; [|left; reflexivity].
      right. split; [apply cf_pub; assumption|reflexivity].
  Qed.

  Definition of_address (x : option bytes) : out bytes :=
    match x with Some a => Ok a | None => Fail SW_ADDRESS_GENERATION_FAILED end.
  Lemma address_sim : forall size type network content, env_ok E -> size < 2 ^ 32 -> type + network < two8 ->
    blen (concat content) + 5 = size ->
    simo F (low_address E F size type network content) (of_address (address_of (e_blake E) type network (concat content))).
  Proof.
    intros size type network content HE Hs Ht Hl. unfold low_address, address_of. destruct (network_id_is_valid network); [|apply simo_refl]. cbn [negb].
    assert (Hb1 : be_bytes 1 (type + network) = [u8 (type + network)]).
    { unfold u8. rewrite N.mod_small by assumption. change (be_bytes 1 (type + network)) with [(type + network) mod 256]. rewrite N.mod_small by exact Ht. reflexivity. }
    rewrite Hb1. set (x := u8 (type + network)).
    assert (Hl1 : blen (concat ([x] :: content)) + 4 = size) by (rewrite blen_concat_cons; change (blen [x]) with 1; lia).
    destruct (array_write F size ([x] :: content) HF Hs ltac:(lia)) as (b & -> & Hv & Ho & Hw & Hc & Hm & Hu & ->).
    change (concat ([x] :: content)) with (x :: concat content) in *. cbv zeta.
    destruct (f_hash F (x :: concat content)) eqn:Hh; [apply simo_fail; [eapply cf_hash; exact Hh|apply st_address]|].
    set (body := x :: concat content) in *. set (ck := firstn 4 (e_blake E body)).
    assert (Hck : blen ck = 4) by (unfold blen, ck; rewrite firstn_length_le; [reflexivity|]; rewrite (ok_blake_len E HE); lia).
    pose proof (write_bytes_cases b ck Hv ltac:(lia)) as W. replace (blen ck <=? rb_cap b - rb_wpos b) with true in W by lia.
    destruct W as (b' & -> & Hv' & Ho' & Hw' & Hc' & Hm' & Hu' & _). left. cbn [of_address]. f_equal.
    rewrite full_memory; [rewrite Hu', Hu; reflexivity|assumption|congruence|]. unfold blen in *. rewrite Hm'. lia.
  Qed.

  Lemma compress_pieces : forall raw, (33 <= length raw)%nat ->
    concat [be_bytes 1 (if N.land (nth 64 raw 0) 1 =? 0 then 0x02 else 0x03); firstn 32 (skipn 1 raw)] = compress raw /\
    blen (compress raw) = 33.
  Proof.
    intros raw H. split.
    - unfold compress. destruct (_ =? 0); cbn [concat]; rewrite app_nil_r; reflexivity.
    - unfold compress, blen. cbn [length]. rewrite firstn_length_le; [reflexivity|]. rewrite skipn_length. lia.
  Qed.
  Lemma pubkey_address_sim : forall network raw, env_ok E -> network < two8 -> (33 <= length raw)%nat ->
    simo F (low_address_from_pubkey E F network raw) (of_address (ergo_address_from_pubkey (e_blake E) network raw)).
  Proof.
    intros network raw HE Hn Hr. unfold low_address_from_pubkey, ergo_address_from_pubkey.
    destruct (compress_pieces raw Hr) as [Hc Hl]. rewrite <- Hc in *.
    destruct (network_id_is_valid network) eqn:V; cycle 1.
    { unfold low_address, address_of. rewrite V. apply simo_refl. }
    unfold network_id_is_valid in V. apply address_sim; try assumption; try reflexivity; [unfold two8 in *; lia|]. rewrite Hl. reflexivity.
  Qed.
  Lemma compressed_address_sim : forall network pk, env_ok E -> network < two8 -> length pk = 33%nat ->
    simo F (low_address_from_compressed_pubkey E F network pk) (of_address (ergo_address_from_compressed_pubkey (e_blake E) network pk)).
  Proof.
    intros network pk HE Hn Hl. unfold low_address_from_compressed_pubkey, ergo_address_from_compressed_pubkey.
    destruct (network_id_is_valid network) eqn:V; cycle 1.
    { unfold low_address, address_of. rewrite V. apply simo_refl. }
    unfold network_id_is_valid in V. pose proof (address_sim 38 1 network [pk] HE) as A. cbn [concat] in A. rewrite app_nil_r in A.
    apply A; [reflexivity|unfold two8; lia|]. unfold blen. rewrite Hl. reflexivity.
  Qed.
  Lemma script_address_sim : forall network h, env_ok E -> network < two8 -> (24 <= length h)%nat ->
    simo F (low_address_from_script_hash E F network h) (of_address (ergo_address_from_script_hash (e_blake E) network h)).
  Proof.
    intros network h HE Hn Hl. unfold low_address_from_script_hash, ergo_address_from_script_hash.
    destruct (network_id_is_valid network) eqn:V; cycle 1.
    { unfold low_address, address_of. rewrite V. apply simo_refl. }
    unfold network_id_is_valid in V. pose proof (address_sim 29 2 network [firstn 24 h] HE) as A. cbn [concat] in A. rewrite app_nil_r in A.
    apply A; [reflexivity|unfold two8; lia|]. unfold blen. rewrite firstn_length_le by assumption. reflexivity.
  Qed.

  (** Lengths of what an address is made of. *)
  Definition type_range (t : out_type) : Prop :=
    match t with
    | OT_ADDRESS pk => length pk = 33%nat
    | OT_SCRIPT_DONE h => length h = 32%nat
    | OT_SCRIPT_HASH h => length h = 24%nat
    | _ => True
    end.
  Lemma print_address_sim : forall o network, env_ok E -> network < two8 -> type_range (oi_type o) ->
    simo F (low_print_address E F o network) (output_info_print_address E o network).
  Proof.
    intros o network HE Hn Ht. unfold low_print_address, output_info_print_address. destruct (output_info_is_finished o); [|apply simo_refl]. cbn [negb].
    destruct (oi_type o) eqn:T; try apply simo_refl; cbn [type_range] in Ht.
    - destruct (compressed_address_sim network public_key HE Hn Ht) as [->|(Hf & s & -> & Hs)].
      + destruct (ergo_address_from_compressed_pubkey _ _ _); left; reflexivity.
      + cbn [bind]. apply simo_fail; assumption.
    - destruct (script_address_sim network (firstn 24 tree_hash) HE Hn) as [->|(Hf & s & -> & Hs)].
      + rewrite firstn_length_le; lia.
      + destruct (ergo_address_from_script_hash _ _ _); left; reflexivity.
      + cbn [bind]. apply simo_fail; assumption.
    - destruct (script_address_sim network tree_hash HE Hn) as [->|(Hf & s & -> & Hs)].
      + lia.
      + destruct (ergo_address_from_script_hash _ _ _); left; reflexivity.
      + cbn [bind]. apply simo_fail; assumption.
  Qed.
  Lemma output_page_sim : forall o table network i, env_ok E -> network < two8 -> type_range (oi_type o) ->
    simo F (low_output_page E F o table network i) (display_output_page E o table network i).
  Proof.
    intros o table network i HE Hn Ht. unfold low_output_page. destruct (i =? 0) eqn:I; [|apply simo_refl].
    unfold display_output_page. rewrite I. apply print_address_sim; assumption.
  Qed.

  (** * Operation *)
  Lemma tx_call_sim : forall c f g, (forall t, op_union_of c = OU_TX t -> simr F (f (op_fs c t)) (g (op_fs c t))) ->
    simo F (tx_call c f) (tx_call c g).
  Proof.
    intros c f g H. unfold tx_call. destruct (op_union_of c) as [|t|]; try apply simo_refl.
    destruct (H t eq_refl) as [->|[Hf Hr]]; [apply simo_refl|]. destruct (f (op_fs c t)) as [r s]. cbn in Hr. subst r. cbn.
    apply simo_fail; [assumption|apply st_hasher].
  Qed.
  Lemma output_call_sim : forall c f g, (forall o, simw F (f o) (g o)) -> simo F (output_call c f) (output_call c g).
  Proof.
    intros c f g H. unfold output_call. destruct (op_union_of c) as [|t|]; try apply simo_refl. destruct (tx_output t) as [o|]; [|apply simo_refl].
    destruct (H o) as [->|[Hf Hr]]; [apply simo_refl|]. destruct (f o) as [r s]. cbn in Hr. subst r.
    apply simo_fail; [assumption|apply st_hasher].
  Qed.
  Definition op_range (c : p2pk) : Prop :=
    match op_union_of c with OU_TX t => full_range (tx_full t) | _ => True end.
  Lemma op_range_tx : forall c t, op_range c -> op_union_of c = OU_TX t -> full_range (fs_full (op_fs c t)).
  Proof. intros c t H K. unfold op_range in H. rewrite K in H. exact H. Qed.

  Lemma start_tx_sim : forall c i d o t, i < two16 ->
    simo F (low_p2pk_start_tx F c i d o t) (p2pk_start_tx c i d o t).
  Proof.
    intros c i d o t Hi. unfold low_p2pk_start_tx, p2pk_start_tx. destruct (op_state_of c); try apply simo_refl.
    destruct (full_init_sim F HF op_tget op_tset i d o t (op_hash c) (op_amounts c, None) Hi) as [->|[Hf Hr]]; [apply simo_refl|].
    destruct (low_full_init _ _ _ _ _ _ _ _ _) as [r s]. cbn in Hr. subst r. cbn. apply simo_fail; [assumption|apply st_hasher].
  Qed.
  Lemma input_tokens_sim : forall c id i tokens, op_range c ->
    simo F (low_p2pk_add_input_tokens F c id i tokens) (p2pk_add_input_tokens c id i tokens).
  Proof.
    intros c id i tokens Hc. unfold low_p2pk_add_input_tokens, p2pk_add_input_tokens. destruct (op_state_of c); try apply simo_refl.
    apply tx_call_sim. intros t Ht. apply full_input_tokens_sim; [assumption|]. eapply op_range_tx; eassumption.
  Qed.
  Lemma input_ext_sim' : forall c data, op_range c ->
    simo F (low_p2pk_add_input_context_extension F c data) (p2pk_add_input_context_extension c data).
  Proof.
    intros c data Hc. unfold low_p2pk_add_input_context_extension, p2pk_add_input_context_extension. destruct (op_state_of c); try apply simo_refl.
    apply tx_call_sim. intros t Ht. apply full_input_ext_sim; [assumption|]. eapply op_range_tx; eassumption.
  Qed.
  Lemma data_inputs_sim : forall c data, op_range c ->
    simo F (low_p2pk_add_data_inputs F c data) (p2pk_add_data_inputs c data).
  Proof.
    intros c data Hc. unfold low_p2pk_add_data_inputs, p2pk_add_data_inputs. destruct (op_state_of c); try apply simo_refl.
    apply tx_call_sim. intros t Ht. apply full_data_sim; [assumption|exact p2pk_input_token_cb|]. eapply op_range_tx; eassumption.
  Qed.
  Lemma output_sim : forall c v tree h n r, v < two64 ->
    simo F (low_p2pk_add_output F c v tree h n r) (p2pk_add_output c v tree h n r).
  Proof.
    intros c v tree h n r Hv. unfold low_p2pk_add_output, p2pk_add_output.
    destruct (op_state_of c); try apply simo_refl; (apply simo_bind; [|intros; apply simo_refl]);
      apply tx_call_sim; intros t Ht; apply full_box_sim; assumption.
  Qed.
  Lemma cb_ok : match on_finished (low_box_cb E F), on_finished (op_box_cb E) with
                | None, None => True
                | Some f, Some g => forall t a, simr F (f t a) (g t a)
                | _, _ => False
                end.
  Proof. cbn. apply finished_cb_sim. Qed.

  Lemma tree_chunk_sim : forall c data, op_range c ->
    simo F (low_p2pk_add_output_tree_chunk E F c data) (p2pk_add_output_tree_chunk E c data).
  Proof.
    intros c data Hc. unfold low_p2pk_add_output_tree_chunk, p2pk_add_output_tree_chunk. destruct (op_state_of c); try apply simo_refl.
    destruct (op_union_of c) as [|t|] eqn:U; try apply simo_refl.
    destruct (full_tree_sim F HF (low_box_cb E F) (op_box_cb E) eq_refl eq_refl cb_ok (op_fs c t) data) as [->|[Hf Hr]].
    - eapply op_range_tx; eassumption.
    - destruct (full_add_box_ergo_tree _ _ _) as [r s].
      destruct r; try apply simo_refl; (apply simo_bind; [|intros; apply simo_refl]); apply output_call_sim; intro o; apply add_chunk_sim.
    - destruct (low_full_add_box_ergo_tree _ _ _ _) as [r s]. cbn in Hr. subst r. cbn. apply simo_fail; [assumption|apply st_hasher].
  Qed.
  Lemma tree_fee_sim : forall c, op_range c ->
    simo F (low_p2pk_add_output_tree_fee E F c) (p2pk_add_output_tree_fee E c).
  Proof.
    intros c Hc. unfold low_p2pk_add_output_tree_fee, p2pk_add_output_tree_fee. destruct (op_state_of c); try apply simo_refl.
    apply simo_bind.
    - apply tx_call_sim. intros t Ht. apply full_fee_sim; try assumption; try reflexivity; [apply cb_ok|]. eapply op_range_tx; eassumption.
    - intros a _. apply simo_bind; [|intros; apply simo_refl]. apply output_call_sim. apply set_fee_sim.
  Qed.
  Lemma tree_change_sim : forall c p pk, op_range c -> (33 <= length pk)%nat ->
    simo F (low_p2pk_add_output_tree_change E F c p pk) (p2pk_add_output_tree_change E c p pk).
  Proof.
    intros c p pk Hc Hl. unfold low_p2pk_add_output_tree_change, p2pk_add_output_tree_change. destruct (op_state_of c); try apply simo_refl.
    apply simo_bind.
    - apply tx_call_sim. intros t Ht. apply full_change_sim; try assumption; try reflexivity; [apply cb_ok|]. eapply op_range_tx; eassumption.
    - intros a _. apply simo_bind; [|intros; apply simo_refl]. apply output_call_sim. intro o. apply set_bip32_sim.
  Qed.
  Lemma output_tokens_sim : forall c data, op_range c -> bytes_ok data = true ->
    simo F (low_p2pk_add_output_tokens E F c data) (p2pk_add_output_tokens E c data).
  Proof.
    intros c data Hc Hb. unfold low_p2pk_add_output_tokens, p2pk_add_output_tokens. destruct (op_state_of c); try apply simo_refl.
    apply simo_bind; [|intros; apply simo_refl].
    apply tx_call_sim. intros t Ht. apply full_box_tokens_sim; try assumption; try reflexivity; [apply cb_ok|]. eapply op_range_tx; eassumption.
  Qed.
  Lemma output_registers_sim : forall c data,
    simo F (low_p2pk_add_output_registers E F c data) (p2pk_add_output_registers E c data).
  Proof.
    intros c data. unfold low_p2pk_add_output_registers, p2pk_add_output_registers. destruct (op_state_of c); try apply simo_refl.
    apply simo_bind; [|intros; apply simo_refl].
    apply tx_call_sim. intros t Ht. apply full_box_registers_sim; try reflexivity. apply cb_ok.
  Qed.
  Lemma send_response_sim : forall c, simo F (low_p2pk_send_response E F c) (p2pk_send_response E c).
  Proof.
    intros c. unfold low_p2pk_send_response, p2pk_send_response, low_private_key, low_schnorr_sign_finish. destruct (op_state_of c); try apply simo_refl.
    destruct (f_derive F) eqn:H1; [apply simo_fail; [apply cf_derive; assumption|apply st_crypto]|].
    destruct (e_derive E (op_path c)) as [[secret ch]|]; [|apply simo_refl].
    destruct (f_finish F) eqn:H2; [apply simo_fail; [apply cf_finish; assumption|apply st_schnorr]|]. apply simo_refl.
  Qed.
  Lemma init_sim : forall nonces p net, exists nonces', redrawn nonces nonces' /\ (nonces' = nonces \/ call_failed F) /\
    simo F (low_p2pk_init E F nonces p net) (p2pk_init E nonces' p net).
  Proof.
    intros nonces p net. unfold low_p2pk_init, p2pk_init, low_private_key.
    destruct (ergo_path_validate p V_ADDRESS_GE5); cbn [negb]; [|exists nonces; repeat split; [apply rd_same|left; reflexivity|apply simo_refl]].
    destruct (network_id_is_supported net); cbn [negb]; [|exists nonces; repeat split; [apply rd_same|left; reflexivity|apply simo_refl]].
    destruct (f_derive F) eqn:H1; [exists nonces; repeat split; [apply rd_same|left; reflexivity|apply simo_fail; [apply cf_derive; assumption|apply st_crypto]]|].
    destruct (e_derive E p) as [[secret ch]|]; [|exists nonces; repeat split; [apply rd_same|left; reflexivity|apply simo_refl]].
    destruct (loop_redrawn secret MAX_ITERATIONS 0 nonces) as (l & Hl & Hs & He). unfold schnorr_sign_init.
    exists l. split; [exact Hl|]. split; [exact Hs|]. rewrite He. apply simo_refl.
  Qed.
End LowOpProofs.
