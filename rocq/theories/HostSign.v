(** The commands a wallet sends for a transaction within the limits are admissible one
    after the other, and describe that transaction. *)
From Verif Require Import Lib Gve CodecProofs Env SpecVlq Bip32 ErgoTree Address Schnorr TxTable TxBox InputFrame UiFlow P2pkOp App SpecText SpecTree SpecTrace SpecTx SpecAmounts SpecApdu
  SpecScreen SpecRequest SpecDispatch SpecSign SpecRules SpecAccept SpecAttest SpecStart SpecHost Moves BoxProofs SignInv SignInput SignRest TraceSign TraceAttest
  TraceScreen TraceShow TraceUb FlowProofs DispatchProofs RequestProofs SessionProofs AttestProofs AcceptInput AcceptFrame AcceptOutput AcceptProofs AttestAccept StartAccept OpenAccept
  AmountProofs FrameRules SignedProofs HostAttest SpecHost.

#[local] Arguments N.eqb : simpl never.
#[local] Arguments N.ltb : simpl never.
#[local] Arguments N.leb : simpl never.
#[local] Arguments N.sub : simpl never.
#[local] Arguments blen : simpl never.
#[local] Arguments num : simpl never.
#[local] Arguments slice : simpl never.

(** ** Amounts of a part are within those of the whole *)

Definition paid (l : list s_output) : N := total (map so_value (filter is_fee l)) + total (map so_value (filter is_change l)).
Lemma paid_app : forall a b, paid (a ++ b) = paid a + paid b.
Proof. intros. unfold paid. rewrite !filter_app, !map_app, !total_app. lia. Qed.
Lemma range_inputs : forall d w rest, sx_outputs d = [] -> total_in d <= total_in w -> input_tokens w = input_tokens d ++ rest ->
  in_range w -> (forall id, amount_of id (input_tokens w) < 2 ^ 63) -> in_range d.
Proof.
  intros d w rest O T I (W1 & W2 & W3) A. unfold in_range, balance, fees, change, output_tokens. rewrite O. cbn [filter map total fold_right concat].
  split; [lia|]. split; [lia|]. intro id. specialize (A id). rewrite I, amount_of_app in A. rewrite amount_of_nil. lia.
Qed.
Lemma range_outputs : forall d w rest, sx_inputs d = sx_inputs w -> paid (sx_outputs d) <= paid (sx_outputs w) -> output_tokens w = output_tokens d ++ rest ->
  in_range w -> (forall id, amount_of id (input_tokens w) < 2 ^ 63) -> in_range d.
Proof.
  intros d w rest I P O (W1 & W2 & W3) A. unfold in_range. unfold paid in P. unfold balance, fees, change, total_in, input_tokens in *. rewrite I in *.
  split; [lia|]. split; [lia|]. intro id. specialize (A id). specialize (W3 id). rewrite O, amount_of_app in W3. lia.
Qed.
Lemma distinct_prefix : forall a b, exists r, distinct_ids (a ++ b) = distinct_ids a ++ r.
Proof.
  intros a b. unfold distinct_ids. rewrite fold_left_app. set (acc := fold_left _ a []). clearbody acc. revert acc.
  induction b as [|x b IH]; intro acc; [exists []; rewrite app_nil_r; reflexivity|]. cbn [fold_left]. destruct (existsb (bytes_eqb x) acc); [apply IH|].
  destruct (IH (acc ++ [x])) as (r & ->). exists ([x] ++ r). rewrite app_assoc. reflexivity.
Qed.
Lemma undeclared_prefix : forall d w rest, sx_tokens d = sx_tokens w -> input_tokens w = input_tokens d ++ rest -> blen (undeclared d) <= blen (undeclared w).
Proof.
  intros d w rest T I. unfold undeclared. rewrite T, I, map_app. destruct (distinct_prefix (map fst (input_tokens d)) (map fst rest)) as (r & ->).
  rewrite filter_app. unfold blen. rewrite app_length. lia.
Qed.
Lemma no_repeat_prefix : forall a b, no_repeat (a ++ b) -> no_repeat a.
Proof. intros a b H x id v y u z ->. apply (H x id v y u (z ++ b)). rewrite <- !app_assoc. cbn. rewrite <- app_assoc. reflexivity. Qed.

Lemma filter_true : forall A (f : A -> bool) l, Forall (fun x => f x = true) l -> filter f l = l.
Proof. intros A f l F. induction F as [|x l H F IH]; [reflexivity|]. cbn [filter]. rewrite H, IH. reflexivity. Qed.
Lemma entries12 : forall l, Forall (fun t => fst t < 2 ^ 32 /\ snd t < 2 ^ 64) l ->
  map (fun e => (num 0 4 e, num 4 8 e)) (entries 12 (concat (map (fun t => be_bytes 4 (fst t) ++ be_bytes 8 (snd t)) l))) = l.
Proof.
  intros l H. rewrite entries_concat; [|lia|].
  - rewrite map_map. induction H as [|[i v] l [H1 H2] H IH]; [reflexivity|]. cbn [map fst snd] in *. f_equal; [|exact IH].
    rewrite num_be by exact H1. rewrite (num_next (be_bytes 4 i) _ 4 8 4) by (apply be_bytes_length || lia). change (4 - 4)%nat with 0%nat. rewrite num_be_end by exact H2. reflexivity.
  - rewrite Forall_map. eapply Forall_impl; [|exact H]. intros t _. cbv beta. rewrite app_length, !be_bytes_length. reflexivity.
Qed.
Lemma entries32 : forall l : list bytes, Forall (fun t => length t = 32%nat) l -> entries 32 (concat l) = l.
Proof. intros l H. apply entries_concat; [lia|exact H]. Qed.
Lemma path_data : forall p, Forall (fun x => x < 2 ^ 32) p -> (length p <= 10)%nat ->
  path_at 0 (be_bytes 1 (blen p) ++ concat (map (be_bytes 4) p)) = p.
Proof.
  intros p F L. unfold path_at. rewrite num_be by (unfold blen; cbn; lia). replace (N.to_nat (blen p)) with (length p) by (unfold blen; lia).
  assert (G : forall q k (a : bytes), length a = (1 + 4 * k)%nat -> Forall (fun x => x < 2 ^ 32) q ->
    map (fun i => num (0 + 1 + 4 * i) 4 (a ++ concat (map (be_bytes 4) q))) (seq k (length q)) = q).
  { induction q as [|x q IH]; intros k a La Fq; [reflexivity|]. cbn [length seq map concat]. f_equal.
    - rewrite (num_next a _ _ _ (1 + 4 * k)%nat La) by lia. replace (0 + 1 + 4 * k - (1 + 4 * k))%nat with 0%nat by lia. apply num_be. exact (Forall_inv Fq).
    - rewrite app_assoc. apply IH; [|exact (Forall_inv_tail Fq)]. rewrite app_length, be_bytes_length. lia. }
  apply (G p 0%nat (be_bytes 1 (blen p))); [apply be_bytes_length|exact F].
Qed.

(** The data of a frame command. *)
Lemma box_wf : forall b, box_fits b -> sb_wf (described b).
Proof.
  intros b ((F1 & _) & F2 & F3 & F4 & _ & F5 & F6 & F7 & F8 & _ & F9). unfold PART_MAX, TOKENS_MAX in *.
  assert (D : sb_done (described b) = true) by (unfold sb_done, described; cbn [sb_tree sb_tree_len]; apply N.eqb_refl).
  constructor.
  - unfold g_att. rewrite D. unfold described. cbn [sb_value sb_tree_len sb_height sb_ntokens sb_regs_len sb_tree sb_tokens sb_regs].
    constructor; cbn [g_value g_height g_ntok g_tree_len g_regs_len g_type g_tree g_done g_toks g_regs]; rewrite ?blen_map; try discriminate; try reflexivity; try assumption; try lia.
  - exact F1.
  - exact F2.
  - eapply Forall_impl; [|exact F6]. intros t ((L & _) & V). split; assumption.
  - exact F8.
Qed.
Lemma frame_data : forall E key b i tl, env_ok E -> box_fits b -> i < frame_total (described b) ->
  let data := tagged E key (frame_of E (described b) i) ++ tl in let toks := firstn 4 (skipn (4 * N.to_nat i) (wb_tokens b)) in
  slice 0 32 data = box_id E (described b) /\ num 32 1 data = frame_total (described b) /\ num 33 1 data = i /\ num 34 8 data = wb_value b /\
  frame_ntokens data = length toks /\ frame_tokens data = toks /\ attested_data E key data /\
  length data = (59 + 40 * length toks + length tl)%nat /\ forall n, num (43 + 40 * length toks + 16) n data = num 0 n tl.
Proof.
  intros E key b i tl Henv F Hi data toks. pose proof (box_wf b F) as Wf.
  assert (V : sb_value (described b) < two64) by (destruct F as (_ & _ & F & _); exact F).
  destruct (frame_fields E key (described b) i Henv Wf V Hi) as (A1 & A2 & A3 & A4 & A5 & A6 & A7 & A8).
  change (sb_tokens (described b)) with (wb_tokens b) in *. change (sb_value (described b)) with (wb_value b) in *. fold toks in A5, A8.
  set (f := tagged E key (frame_of E (described b) i)) in *.
  assert (L4 : (length toks <= 4)%nat) by (unfold toks; rewrite firstn_length; lia).
  assert (Lf : length (frame_body f) = (43 + 40 * length toks)%nat).
  { rewrite A6. unfold f, tagged in A8. rewrite app_length, firstn_length, (ok_hmac_len E Henv) in A8. change (Nat.min 16 32) with 16%nat in A8. lia. }
  assert (Nt : frame_ntokens f = length toks).
  { unfold frame_body, slice in Lf. rewrite firstn_length, skipn_length in Lf. lia. }
  assert (Nd : frame_ntokens data = length toks).
  { rewrite <- Nt. unfold frame_ntokens, data. rewrite num_prefix by lia. reflexivity. }
  assert (S : forall off n, (off + n <= 59 + 40 * length toks)%nat -> slice off n data = slice off n f) by (intros; unfold data; apply slice_prefix; lia).
  assert (Sn : forall off n, (off + n <= 59 + 40 * length toks)%nat -> num off n data = num off n f) by (intros; unfold num; rewrite S by assumption; reflexivity).
  split; [rewrite S by lia; exact A1|]. do 3 (split; [rewrite Sn by lia; assumption|]). split; [exact Nd|].
  split. { rewrite <- A5. unfold frame_tokens. rewrite Nd, Nt, S by lia. reflexivity. }
  split. { unfold attested_data. rewrite Nd. split; [unfold data; rewrite app_length; lia|]. split; [exact L4|].
    unfold frame_tag, frame_body. rewrite Nd, !S by lia. rewrite <- Nt at 1 2. change (slice 0 (43 + 40 * frame_ntokens f) f) with (frame_body f). change (slice (43 + 40 * frame_ntokens f) 16 f) with (frame_tag f).
    rewrite A6. exact A7. }
  split; [unfold data; rewrite app_length; lia|].
  intro n. unfold data. rewrite (num_next f tl _ n (59 + 40 * length toks)%nat A8) by lia. f_equal. lia.
Qed.

(** ** Outputs *)

Section Tx.
  Context (E : env) (key : bytes) (w : w_tx).
  Let W := wanted E w.
  Let adm := admissible E key.
  Let run d l d' := chain describe_cmd adm d l /\ after describe_cmd d l = d'.
  Lemma run_app : forall d1 l1 d2 l2 d3, run d1 l1 d2 -> run d2 l2 d3 -> run d1 (l1 ++ l2) d3.
  Proof. intros d1 l1 d2 l2 d3 [A1 A2] [B1 B2]. split; [apply chain_app; [exact A1|rewrite A2; exact B1]|rewrite after_app, A2; exact B2]. Qed.
  Lemma run_one : forall d sub data d', adm d sub data -> describe_cmd d sub data = d' -> run d [(sub, data)] d'.
  Proof. intros d sub data d' A B. split; [split; [exact A|exact I]|exact B]. Qed.

  Definition tx_head : s_head := mk_sh (blen (w_inputs w)) (blen (w_data w)) (blen (w_tokens w)) (blen (w_outputs w)).
  Definition stage (toks : list bytes) (ins : list s_input) (data : list bytes) (outs : list s_output) : s_tx := mk_stx (Some tx_head) toks ins data outs.
  Let inputs := map (wanted_input E) (w_inputs w).
  Definition outs_stage (outs : list s_output) : s_tx := stage (w_tokens w) inputs (w_data w) outs.
  (** An output in the making. *)
  Definition part (o : w_output) (dest : option destination) (toks : list (N * N)) (regs : bytes) : s_output :=
    mk_so (wo_value o) (declared_len (wo_dest o)) (wo_height o) (blen (wo_tokens o)) (blen (wo_regs o)) dest toks regs false false.
  Lemma wanted_complete : forall o, output_complete (wanted_output o) = true.
  Proof.
    intros o. unfold output_complete, tree_complete, wanted_output. cbn [so_dest so_tokens so_ntokens so_regs so_regs_len so_tree_len]. rewrite !N.eqb_refl.
    destruct (wo_dest o); cbn [declared_len]; rewrite ?N.eqb_refl; reflexivity.
  Qed.
  Lemma input_whole : forall x, input_complete (wanted_input E x) = true.
  Proof.
    intros x. unfold input_complete, wanted_input, framed, frame_numbers, numbers. cbn [si_frames si_count si_ext si_ext_len]. rewrite N.eqb_refl, andb_true_r.
    unfold blen. rewrite !map_length, seq_length, N2Nat.id. apply N.eqb_refl.
  Qed.
  Lemma all_inputs : inputs_done (outs_stage []) tx_head.
  Proof.
    split; [unfold outs_stage, stage, inputs; cbn; unfold blen; rewrite map_length; reflexivity|]. apply Forall_forall. intros i Hi. apply in_map_iff in Hi as (x & <- & _). apply input_whole.
  Qed.
  Hypothesis Fits : tx_fits E w.
  Lemma fits_range : in_range W /\ forall id, amount_of id (input_tokens W) < 2 ^ 63.
  Proof. destruct Fits as (_ & _ & _ & _ & _ & _ & _ & _ & A & B). split; assumption. Qed.
  Section Out.
    Context (pre post : list w_output) (o : w_output).
    Hypothesis Split : w_outputs w = pre ++ o :: post.
    Let at_ dest toks regs := outs_stage (map wanted_output pre ++ [part o dest toks regs]).
    Lemma out_fits : output_fits E w o.
    Proof. destruct Fits as (_ & _ & _ & _ & _ & _ & F & _). rewrite Forall_forall in F. apply F. rewrite Split. apply in_elt. Qed.
    Lemma out_range : forall dest toks rest regs, dest = None \/ (exists t t', dest = Some (SD_TREE t) /\ wo_dest o = SD_TREE t') \/ dest = Some (wo_dest o) ->
      wo_tokens o = toks ++ rest -> in_range (at_ dest toks regs).
    Proof.
      intros dest toks rest regs Hd Ht. destruct fits_range as [R A].
      apply (range_outputs _ W (tokens_of W (mk_so 0 0 0 0 0 None rest [] false false) ++ concat (map (tokens_of W) (map wanted_output post)))); [reflexivity| | |exact R|exact A].
      - unfold W, wanted, at_, outs_stage, stage. cbn [sx_outputs]. rewrite Split, map_app, !paid_app. cbn [map]. change (wanted_output o :: map wanted_output post) with ([wanted_output o] ++ map wanted_output post).
        rewrite paid_app. assert (K : paid [part o dest toks regs] <= paid [wanted_output o]); [|lia].
        unfold paid, part, wanted_output, is_fee, is_change. cbn [filter so_dest].
        destruct Hd as [-> | [(t & t' & -> & ->) | ->]]; cbn [map total fold_right]; [lia|lia|]. destruct (wo_dest o); cbn [map total fold_right so_value]; lia.
      - unfold output_tokens, W, wanted, at_, outs_stage, stage. cbn [sx_outputs]. rewrite Split, !map_app, !concat_app. cbn [map concat]. rewrite app_nil_r, <- app_assoc. f_equal.
        unfold tokens_of. cbn [sx_tokens so_tokens part wanted_output]. rewrite Ht, map_app, <- app_assoc. reflexivity.
    Qed.
    Lemma open_run : run (outs_stage (map wanted_output pre))
      [(0x15, be_bytes 8 (wo_value o) ++ be_bytes 4 (declared_len (wo_dest o)) ++ be_bytes 4 (wo_height o) ++ be_bytes 1 (blen (wo_tokens o)) ++ be_bytes 4 (blen (wo_regs o)))]
      (at_ None [] []).
    Proof.
      destruct out_fits as (V & H & D & _ & T & _ & _ & R). unfold PART_MAX, TOKENS_MAX in *.
      assert (Dl : declared_len (wo_dest o) <= 32768). { destruct (wo_dest o) as [t| |p]; cbn [declared_len]; [destruct D as [_ D]; exact D|lia|lia]. }
      set (data := be_bytes 8 _ ++ _).
      assert (L : forall n v, length (be_bytes n v) = n) by (intros; apply be_bytes_length).
      assert (Fd : length data = 21%nat /\ num 0 8 data = wo_value o /\ num 8 4 data = declared_len (wo_dest o) /\ num 12 4 data = wo_height o /\ num 16 1 data = blen (wo_tokens o) /\ num 17 4 data = blen (wo_regs o)).
      { unfold data. split; [rewrite !app_length, !L; reflexivity|].
        repeat match goal with |- context [num ?off ?n (be_bytes ?k ?v ++ ?l)] => 
          lazymatch off with 0%nat => fail | _ => rewrite (num_next (be_bytes k v) l off n k (L k v)) by lia end end.
        cbn [Nat.sub]. rewrite !num_be, num_be_end by (cbn; lia). repeat split. }
      destruct Fd as (F0 & F1 & F2 & F3 & F4 & F5). apply run_one.
      - right. exists tx_head. split; [reflexivity|]. split; [apply all_inputs|]. split; [reflexivity|]. split.
        + unfold outputs_done, count_complete, outs_stage, stage. cbn [sx_outputs]. rewrite filter_true; [|apply Forall_forall; intros x Hx; apply in_map_iff in Hx as (y & <- & _); apply wanted_complete].
          unfold tx_head. cbn [sh_outputs]. rewrite Split. unfold blen. rewrite map_length, app_length. cbn [length]. lia.
        + split; [exact F0|]. unfold PART_MAX, TOKENS_MAX. rewrite F2, F4, F5. repeat split; lia.
      - unfold describe_cmd. cbv beta iota. rewrite F1, F2, F3, F4, F5. reflexivity.
    Qed.
    Lemma upd_part : forall f dest toks regs, on_outputs (upd_last f) (at_ dest toks regs) = outs_stage (map wanted_output pre ++ [f (part o dest toks regs)]).
    Proof. intros. unfold on_outputs, at_, outs_stage, stage. cbn [sx_head sx_tokens sx_inputs sx_data sx_outputs]. rewrite upd_last_snoc. reflexivity. Qed.
    Lemma current_part : forall dest toks regs, current_output (at_ dest toks regs) (part o dest toks regs).
    Proof. intros. exists (map wanted_output pre). reflexivity. Qed.
    Lemma dest_run : run (at_ None [] []) (dest_commands (wo_dest o)) (at_ (Some (wo_dest o)) [] []).
    Proof.
      destruct out_fits as (_ & _ & D & _). destruct (wo_dest o) as [t| |p] eqn:Ed; cbn [dest_commands dest_fits] in *.
      - unfold script_packets. destruct t as [|x l] eqn:Et.
        + apply run_one; [|apply upd_part]. right. exists tx_head. split; [reflexivity|]. exists (part o None [] []). split; [apply current_part|]. split; [reflexivity|].
          unfold part. cbn [so_tree_len script_so_far so_dest]. rewrite Ed. cbn [declared_len]. split; [reflexivity|left; reflexivity].
        + rewrite <- Et in *.
          pose proof (bytes_chain s_tx describe_cmd adm 0x16 255 (fun a => at_ (match a with [] => None | _ => Some (SD_TREE a) end) [] []) t ltac:(lia)) as G.
          cbv beta iota in G. assert (K : match t with [] => None | _ => Some (SD_TREE t) end = Some (SD_TREE t)) by (rewrite Et; reflexivity). rewrite K in G. apply G. clear G K.
          intros a c Eq Nn. pose proof (prefix_less _ _ _ _ Eq Nn) as Pl. split.
          * right. exists tx_head. split; [reflexivity|]. exists (part o (match a with [] => None | _ => Some (SD_TREE a) end) [] []). split; [apply current_part|].
            assert (Bs : script_so_far (part o (match a with [] => None | _ => Some (SD_TREE a) end) [] []) = a) by (destruct a; reflexivity).
            assert (Tl : so_tree_len (part o (match a with [] => None | _ => Some (SD_TREE a) end) [] []) = blen t) by (unfold part; cbn [so_tree_len]; rewrite Ed; reflexivity).
            rewrite Bs, Tl. split; [|split; [apply (prefix_more _ _ _ _ 255 Eq)|apply (firstn_last_or _ _ _ _ 255 Eq)]].
            unfold tree_complete. rewrite Tl. destruct a as [|z a]; [reflexivity|]. cbn [part so_dest]. apply N.eqb_neq. lia.
          * destruct c as [|y c]; [congruence|]. cbn [firstn]. set (f := firstn 254 c). unfold describe_cmd. cbv beta iota. rewrite upd_part. destruct a as [|z a]; reflexivity.
      - apply run_one; [|apply upd_part]. right. exists tx_head. split; [reflexivity|]. split; [reflexivity|]. split; [eexists; split; [apply current_part|reflexivity]|].
        change (describe_cmd (at_ None [] []) 23 []) with (on_outputs (upd_last (set_dest (fun _ => SD_FEE))) (at_ None [] [])). rewrite upd_part.
        destruct (out_range (Some SD_FEE) [] (wo_tokens o) []) as (_ & K & _); [right; right; rewrite Ed; reflexivity|reflexivity|]. exact K.
      - destruct D as (D1 & D2 & D3 & D4). pose proof (path_data p D2 D3) as Pp. set (data := be_bytes 1 _ ++ _) in *.
        assert (Nx : describe_cmd (at_ None [] []) 24 data = at_ (Some (SD_CHANGE p)) [] []) by (unfold describe_cmd; cbv beta iota; rewrite upd_part, Pp; reflexivity).
        apply run_one; [|exact Nx]. right. exists tx_head. split; [reflexivity|]. split; [eexists; split; [apply current_part|reflexivity]|]. rewrite Nx.
        destruct (out_range (Some (SD_CHANGE p)) [] (wo_tokens o) []) as (_ & K & _); [right; right; rewrite Ed; reflexivity|reflexivity|].
        split; [exact K|]. rewrite Pp.
        assert (Ld : length data = (1 + 4 * length p)%nat).
        { unfold data. rewrite app_length, be_bytes_length. f_equal. clear. induction p as [|x p IH]; [reflexivity|]. cbn [map concat]. rewrite app_length, be_bytes_length, IH. cbn [length]. lia. }
        rewrite Ld. split; [lia|]. split; [lia|]. split; [exact D3|]. split; [exact D1|exact D4].
    Qed.
    Lemma tokens_run : run (at_ (Some (wo_dest o)) [] []) (packets 0x19 252 (concat (map (fun t => be_bytes 4 (fst t) ++ be_bytes 8 (snd t)) (wo_tokens o))))
      (at_ (Some (wo_dest o)) (wo_tokens o) []).
    Proof.
      destruct out_fits as (_ & _ & _ & T & Tm & Nr & _).
      assert (Wt : blen (w_tokens w) <= 20). { destruct Fits as (_ & _ & _ & _ & _ & _ & _ & F & _). unfold TOKENS_MAX in F. lia. }
      apply (items_chain s_tx describe_cmd adm 0x19 (N * N) (fun t => be_bytes 4 (fst t) ++ be_bytes 8 (snd t)) 12 21 (fun a => at_ (Some (wo_dest o)) a [])); [|lia|lia|].
      { apply Forall_forall. intros t _. rewrite app_length, !be_bytes_length. reflexivity. }
      intros a c Eq Nn. pose proof (prefix_less _ _ _ _ Eq Nn) as Pl. pose proof (prefix_more _ _ _ _ 21 Eq) as Pm.
      assert (Ok : Forall (fun t => fst t < blen (w_tokens w) /\ snd t < 2 ^ 64) (firstn 21 c)).
      { rewrite Eq in T. apply Forall_app in T as [_ T]. rewrite <- (firstn_skipn 21 c) in T. apply Forall_app in T as [T _]. exact T. }
      assert (Ok' : Forall (fun t : N * N => fst t < 2 ^ 32 /\ snd t < 2 ^ 64) (firstn 21 c)) by (eapply Forall_impl; [|exact Ok]; cbv beta; intros t [A B]; split; [cbn; lia|exact B]).
      pose proof (entries12 _ Ok') as En. set (data := concat _) in *.
      assert (Nx : describe_cmd (at_ (Some (wo_dest o)) a []) 25 data = at_ (Some (wo_dest o)) (a ++ firstn 21 c) []) by (unfold describe_cmd; cbv beta iota; rewrite upd_part, En; reflexivity).
      split; [|exact Nx]. right. exists tx_head. split; [reflexivity|]. split.
      { exists (part o (Some (wo_dest o)) a []). split; [apply current_part|]. split; [|exact Pl]. pose proof (wanted_complete o) as K. unfold output_complete in K. apply andb_true_iff in K as [K _]. apply andb_true_iff in K as [K _]. exact K. }
      split. { unfold entries_of. apply (proj1 (entries_whole 12 _ ltac:(lia))). unfold data. rewrite entries_concat; [|lia|]; rewrite Forall_map; apply Forall_forall; intros t _; rewrite app_length, !be_bytes_length; reflexivity. }
      split. { apply Forall_forall. intros e He. assert (Ie : In (num 0 4 e, num 4 8 e) (firstn 21 c)) by (rewrite <- En; apply in_map_iff; eauto). rewrite Forall_forall in Ok. apply Ok in Ie. exact (proj1 Ie). }
      rewrite Nx. split.
      { exists (part o (Some (wo_dest o)) (a ++ firstn 21 c) []). split; [apply current_part|]. split; [exact Pm|].
        apply (no_repeat_prefix _ (map (fun t => (nth (N.to_nat (fst t)) (w_tokens w) [], snd t)) (skipn 21 c))). unfold tokens_of in *. cbn [so_tokens part wanted_output sx_tokens wanted at_ outs_stage stage] in *.
        rewrite Eq in Nr. rewrite <- map_app, <- app_assoc, firstn_skipn. exact Nr. }
      apply (out_range _ _ (skipn 21 c)); [auto|]. rewrite <- app_assoc, firstn_skipn. exact Eq.
    Qed.
    Lemma regs_run : run (at_ (Some (wo_dest o)) (wo_tokens o) []) (packets 0x1A 255 (wo_regs o)) (outs_stage (map wanted_output (pre ++ [o]))).
    Proof.
      replace (outs_stage (map wanted_output (pre ++ [o]))) with (at_ (Some (wo_dest o)) (wo_tokens o) (wo_regs o)) by (unfold at_; rewrite map_app; reflexivity).
      apply (bytes_chain s_tx describe_cmd adm 0x1A 255 (fun a => at_ (Some (wo_dest o)) (wo_tokens o) a)); [lia|].
      intros a c Eq Nn. pose proof (prefix_less _ _ _ _ Eq Nn) as Pl. split; [|apply upd_part].
      right. exists tx_head. split; [reflexivity|]. exists (part o (Some (wo_dest o)) (wo_tokens o) a). split; [apply current_part|]. split.
      { pose proof (wanted_complete o) as K. unfold output_complete in K. apply andb_true_iff in K as [K _]. apply andb_true_iff in K as [K _]. exact K. }
      split; [reflexivity|]. split; [exact Pl|]. apply (prefix_more _ _ _ _ 255 Eq).
    Qed.
    Lemma output_run : run (outs_stage (map wanted_output pre)) (output_commands o) (outs_stage (map wanted_output (pre ++ [o]))).
    Proof.
      unfold output_commands. eapply run_app; [apply open_run|]. eapply run_app; [apply dest_run|]. eapply run_app; [apply tokens_run|apply regs_run].
    Qed.
  End Out.
  Lemma outputs_run : run (outs_stage []) (concat (map output_commands (w_outputs w))) W.
  Proof.
    assert (G : forall post pre, w_outputs w = pre ++ post -> run (outs_stage (map wanted_output pre)) (concat (map output_commands post)) W).
    { induction post as [|o post IH]; intros pre Eq.
      - rewrite app_nil_r in Eq. split; [exact I|]. rewrite <- Eq. reflexivity.
      - cbn [map concat]. eapply run_app; [apply (output_run pre post o Eq)|]. apply IH. rewrite <- app_assoc. exact Eq. }
    apply (G (w_outputs w) []). reflexivity.
  Qed.

  (** ** Inputs *)

  Definition ins_stage (ins : list s_input) : s_tx := stage (w_tokens w) ins [] [].
  Section In.
    Context (pre post : list (w_box * bytes)) (b : w_box) (ext : bytes).
    Hypothesis Henv : env_ok E.
    Hypothesis Split : w_inputs w = pre ++ (b, ext) :: post.
    Let fr (i : nat) := firstn 4 (skipn (4 * i) (wb_tokens b)).
    Let T := N.to_nat (frame_total (described b)).
    Let at_ (k : nat) (e : bytes) := ins_stage (map (wanted_input E) pre ++
      [mk_si (box_id E (described b)) (wb_value b) (frame_total (described b)) (map fr (seq 0 k)) (blen ext) e]).
    Lemma in_fits : input_fits (b, ext).
    Proof. destruct Fits as (_ & _ & _ & _ & F & _). rewrite Forall_forall in F. apply F. rewrite Split. apply in_elt. Qed.
    Lemma framed_seq : framed b = map fr (seq 0 T).
    Proof. unfold framed, frame_numbers, numbers. rewrite map_map. apply map_ext. intro i. rewrite Nat2N.id. reflexivity. Qed.
    Lemma in_range_part : forall k e, (k <= T)%nat -> in_range (at_ k e) /\ blen (sx_tokens (at_ k e)) + blen (undeclared (at_ k e)) <= TOKENS_MAX.
    Proof.
      intros k e Hk. destruct fits_range as [R A].
      assert (I : exists rest, input_tokens W = input_tokens (at_ k e) ++ rest).
      { exists (concat (map fr (seq k (T - k))) ++ concat (map (fun i => concat (si_frames i)) (map (wanted_input E) post))).
        unfold input_tokens, W, wanted, at_, ins_stage, stage. cbn [sx_inputs]. rewrite Split, !map_app, !concat_app. cbn [map concat]. rewrite app_nil_r, <- app_assoc. f_equal.
        cbn [si_frames wanted_input fst]. rewrite framed_seq. replace T with (k + (T - k))%nat at 1 by lia. rewrite seq_app, map_app, concat_app, <- app_assoc. reflexivity. }
      destruct I as (rest & I). split.
      - apply (range_inputs _ W rest); [reflexivity| |exact I|exact R|exact A].
        unfold total_in, W, wanted, at_, ins_stage, stage. cbn [sx_inputs]. rewrite Split, !map_app, !total_app. cbn [map total fold_right si_value wanted_input fst]. lia.
      - pose proof (undeclared_prefix (at_ k e) W rest ltac:(reflexivity) I) as U. destruct Fits as (_ & _ & _ & _ & _ & _ & _ & F & _). change (sx_tokens (at_ k e)) with (w_tokens w). fold W in F. lia.
    Qed.
    Definition frame_cmd (i : N) : command := (0x12, tagged E key (frame_of E (described b) i) ++ (if i =? 0 then be_bytes 4 (blen ext) else [])).
    Lemma seq_snoc : forall k, map fr (seq 0 (S k)) = map fr (seq 0 k) ++ [fr k].
    Proof. intro k. replace (S k) with (k + 1)%nat by lia. rewrite seq_app, map_app. reflexivity. Qed.
    Lemma inputs_bound : blen (map (wanted_input E) pre) + 1 <= blen (w_inputs w).
    Proof. rewrite Split. unfold blen. rewrite map_length, app_length. cbn [length]. lia. Qed.
    Lemma total_pos : (1 <= T)%nat.
    Proof. unfold T, frame_total. lia. Qed.
    Lemma first_run : run (ins_stage (map (wanted_input E) pre)) [frame_cmd 0] (at_ 1 []).
    Proof.
      destruct in_fits as (Fb & Fe & F1 & Fm). cbn [fst snd] in *. pose proof total_pos as Tp. unfold PART_MAX in Fm.
      destruct (frame_data E key b 0 (be_bytes 4 (blen ext)) Henv Fb ltac:(unfold frame_total; lia)) as (A1 & A2 & A3 & A4 & A5 & A6 & A7 & A8 & A9). cbv zeta in *.
      unfold frame_cmd. change (0 =? 0) with true. cbv iota. set (data := tagged _ _ _ ++ _) in *.
      specialize (A9 4%nat). rewrite num_be_end in A9 by (change (256 ^ N.of_nat 4) with 4294967296; lia). rewrite be_bytes_length in A8.
      assert (Nx : describe_cmd (ins_stage (map (wanted_input E) pre)) 18 data = at_ 1 []).
      { unfold describe_cmd. cbv beta iota. rewrite A3. change (0 =? 0) with true. cbv iota. rewrite A1, A2, A4, A5, A6, A9. reflexivity. }
      apply run_one; [|exact Nx]. right. exists tx_head. split; [reflexivity|]. rewrite Nx. destruct (in_range_part 1 [] Tp) as [R U].
      split; [reflexivity|]. split; [exact A7|]. split.
      { left. rewrite A3, A2. split; [reflexivity|]. split; [unfold frame_total; lia|]. apply Forall_forall. intros i Hi. apply in_map_iff in Hi as (x & <- & _). apply input_whole. }
      split. { unfold at_, ins_stage, stage. cbn [sx_inputs tx_head sh_inputs]. unfold blen at 1. rewrite app_length. cbn [length]. pose proof inputs_bound as K. unfold blen at 1 in K. lia. }
      split; [|split; [exact R|exact U]]. intros _. cbv zeta. rewrite A5, A9. unfold PART_MAX. split; [lia|]. split; [exact F1|exact Fm].
    Qed.
    Lemma next_run : forall k, (1 <= k < T)%nat -> run (at_ k []) [frame_cmd (N.of_nat k)] (at_ (S k) []).
    Proof.
      intros k Hk. destruct in_fits as (Fb & _). cbn [fst snd] in *.
      destruct (frame_data E key b (N.of_nat k) [] Henv Fb ltac:(unfold T in Hk; lia)) as (A1 & A2 & A3 & A4 & A5 & A6 & A7 & A8 & A9). cbv zeta in *.
      unfold frame_cmd. replace (N.of_nat k =? 0) with false by (symmetry; apply N.eqb_neq; lia). cbv iota. set (data := tagged _ _ _ ++ _) in *. rewrite Nat2N.id in A6.
      assert (Nx : describe_cmd (at_ k []) 18 data = at_ (S k) []).
      { unfold describe_cmd. cbv beta iota. rewrite A3. replace (N.of_nat k =? 0) with false by (symmetry; apply N.eqb_neq; lia). cbv iota. rewrite A6.
        unfold on_inputs, at_, ins_stage, stage. cbn [sx_head sx_tokens sx_inputs sx_data sx_outputs]. rewrite upd_last_snoc. cbn [si_id si_value si_count si_frames si_ext_len si_ext]. rewrite seq_snoc. reflexivity. }
      apply run_one; [|exact Nx]. right. exists tx_head. split; [reflexivity|]. rewrite Nx. destruct (in_range_part (S k) [] ltac:(lia)) as [R U].
      split; [reflexivity|]. split; [exact A7|]. split.
      { right. exists (map (wanted_input E) pre). eexists. split; [reflexivity|]. cbn [si_id si_frames si_count]. rewrite A1, A3. split; [reflexivity|].
        split; [lia|]. unfold blen. rewrite map_length, seq_length. split; [reflexivity|]. unfold T in Hk. lia. }
      split. { unfold at_, ins_stage, stage. cbn [sx_inputs tx_head sh_inputs]. unfold blen at 1. rewrite app_length. cbn [length]. pose proof inputs_bound as K. unfold blen at 1 in K. lia. }
      split; [|split; [exact R|exact U]]. intro K. rewrite A3 in K. lia.
    Qed.
    Lemma frames_chain : run (ins_stage (map (wanted_input E) pre)) (map frame_cmd (frame_numbers b)) (at_ T []).
    Proof.
      unfold frame_numbers, numbers. fold T. pose proof total_pos as Tp. destruct T as [|n] eqn:En; [lia|]. cbn [seq map].
      change (frame_cmd (N.of_nat 0) :: ?l) with ([frame_cmd 0] ++ l). eapply run_app; [apply first_run|].
      assert (G : forall m k, (1 <= k)%nat -> (k + m = T)%nat -> run (at_ k []) (map frame_cmd (map N.of_nat (seq k m))) (at_ T [])).
      { induction m as [|m IH]; intros k K1 K2; [rewrite Nat.add_0_r in K2; rewrite <- K2; split; [exact I|reflexivity]|].
        cbn [seq map]. change (frame_cmd (N.of_nat k) :: ?l) with ([frame_cmd (N.of_nat k)] ++ l). eapply run_app; [apply next_run; lia|apply IH; lia]. }
      rewrite <- En. apply G; lia.
    Qed.
    Lemma ext_run : run (at_ T []) (packets 0x13 255 ext) (ins_stage (map (wanted_input E) (pre ++ [(b, ext)]))).
    Proof.
      replace (ins_stage (map (wanted_input E) (pre ++ [(b, ext)]))) with (at_ T ext) by (unfold at_; rewrite <- framed_seq, map_app; reflexivity).
      apply (bytes_chain s_tx describe_cmd adm 0x13 255 (fun a => at_ T a)); [lia|].
      intros a c Eq Nn. pose proof (prefix_less _ _ _ _ Eq Nn) as Pl. split.
      - right. exists tx_head. split; [reflexivity|]. eexists. split; [exists (map (wanted_input E) pre); reflexivity|]. cbn [si_frames si_count si_ext si_ext_len].
        split; [unfold blen; rewrite map_length, seq_length; unfold T; lia|]. split; [exact Pl|]. apply (prefix_more _ _ _ _ 255 Eq).
      - unfold describe_cmd, on_inputs, at_, ins_stage, stage. cbn [sx_head sx_tokens sx_inputs sx_data sx_outputs]. rewrite upd_last_snoc. reflexivity.
    Qed.
    Lemma input_run : run (ins_stage (map (wanted_input E) pre)) (input_commands E key (b, ext)) (ins_stage (map (wanted_input E) (pre ++ [(b, ext)]))).
    Proof. unfold input_commands. cbn [fst snd]. eapply run_app; [apply frames_chain|apply ext_run]. Qed.
  End In.
  Lemma inputs_run : env_ok E -> run (ins_stage []) (concat (map (input_commands E key) (w_inputs w))) (ins_stage inputs).
  Proof.
    intro Henv.
    assert (G : forall post pre, w_inputs w = pre ++ post -> run (ins_stage (map (wanted_input E) pre)) (concat (map (input_commands E key) post)) (ins_stage inputs)).
    { induction post as [|[b ext] post IH]; intros pre Eq.
      - rewrite app_nil_r in Eq. split; [exact I|]. unfold inputs. rewrite Eq. reflexivity.
      - cbn [map concat]. eapply run_app; [apply (input_run pre post b ext Henv Eq)|]. apply IH. rewrite <- app_assoc. exact Eq. }
    apply (G (w_inputs w) []). reflexivity.
  Qed.

  (** ** Header, tokens and data inputs *)

  Lemma head_run : run s_empty
    [(0x10, be_bytes 2 (blen (w_inputs w)) ++ be_bytes 2 (blen (w_data w)) ++ be_bytes 1 (blen (w_tokens w)) ++ be_bytes 2 (blen (w_outputs w)))] (stage [] [] [] []).
  Proof.
    destruct Fits as (F1 & F2 & F3 & _ & _ & _ & _ & F4 & _). unfold TOKENS_MAX in F4.
    assert (L : forall n v, length (be_bytes n v) = n) by (intros; apply be_bytes_length). set (data := be_bytes 2 _ ++ _).
    assert (Fd : length data = 7%nat /\ num 0 2 data = blen (w_inputs w) /\ num 2 2 data = blen (w_data w) /\ num 4 1 data = blen (w_tokens w) /\ num 5 2 data = blen (w_outputs w)).
    { unfold data. split; [rewrite !app_length, !L; reflexivity|].
      repeat match goal with |- context [num ?off ?n (be_bytes ?k ?v ++ ?l)] => 
        lazymatch off with 0%nat => fail | _ => rewrite (num_next (be_bytes k v) l off n k (L k v)) by lia end end.
      cbn [Nat.sub]. rewrite !num_be, num_be_end by (cbn; lia). repeat split. }
    destruct Fd as (D0 & D1 & D2 & D3 & D4). apply run_one.
    - left. split; [reflexivity|]. unfold header_ok, TOKENS_MAX. rewrite D1, D3, D4. do 2 (split; [assumption || reflexivity|]). split; [lia|]. split; lia.
    - unfold describe_cmd. cbv beta iota. rewrite D1, D2, D3, D4. reflexivity.
  Qed.
  (** Lists of 32-byte ids, seven to a packet. *)
  Lemma ids_run : forall sub (put : list bytes -> s_tx) l, Forall (octets 32) l ->
    (forall a data, entries_of 32 data -> blen a < blen l -> blen (a ++ entries 32 data) <= blen l -> adm (put a) sub data) ->
    (forall a data, describe_cmd (put a) sub data = put (a ++ entries 32 data)) ->
    run (put []) (packets sub 224 (concat l)) (put l).
  Proof.
    intros sub put l F Ha Hn. pose proof (items_chain s_tx describe_cmd adm sub bytes (fun t => t) 32 7 put l) as G. rewrite map_id in G. apply G; [|lia|lia|].
    { eapply Forall_impl; [|exact F]. intros t [K _]. exact K. }
    intros a c Eq Nn. pose proof (prefix_less _ _ _ _ Eq Nn) as Pl. pose proof (prefix_more _ _ _ _ 7 Eq) as Pm. rewrite map_id.
    assert (Ok : Forall (fun t => length t = 32%nat) (firstn 7 c)).
    { rewrite Eq in F. apply Forall_app in F as [_ F]. rewrite <- (firstn_skipn 7 c) in F. apply Forall_app in F as [F _]. eapply Forall_impl; [|exact F]. intros t [K _]. exact K. }
    pose proof (entries32 _ Ok) as En. split.
    - apply Ha; [|exact Pl|rewrite En; exact Pm]. apply (proj1 (entries_whole 32 _ ltac:(lia))). rewrite En. exact Ok.
    - rewrite Hn, En. reflexivity.
  Qed.
  Theorem tx_run : env_ok E -> run s_empty (tx_commands E key w) W.
  Proof.
    intro Henv. destruct Fits as (_ & _ & _ & Ft & _ & Fd & _). unfold tx_commands. eapply run_app; [apply head_run|]. eapply run_app.
    { apply (ids_run 0x11 (fun l => stage l [] [] [])); [exact Ft| |reflexivity].
      intros a data Hd Hl Hm. right. exists tx_head. split; [reflexivity|]. split; [unfold tokens_done, stage; cbn [sx_tokens tx_head sh_tokens]; lia|]. split; [exact Hd|exact Hm]. }
    eapply run_app; [apply (inputs_run Henv)|]. eapply run_app; [|apply outputs_run].
    apply (ids_run 0x14 (fun l => stage (w_tokens w) inputs l [])); [exact Fd| |reflexivity].
    intros a data Hd Hl Hm. right. exists tx_head. split; [reflexivity|]. split; [apply all_inputs|]. split; [unfold data_done, stage; cbn [sx_data tx_head sh_data]; lia|]. split; [exact Hd|exact Hm].
  Qed.
End Tx.
