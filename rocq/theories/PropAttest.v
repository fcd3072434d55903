(** C11, C12, C13 (boxes), C27, C28: box attestation. *)
From Verif Require Import Lib TxTable TxBox Env UiFlow App SpecTrace SpecTx SpecApdu SpecChunk Toy ChunkProofs AttestProofs.

(** C11.  A frame is answered only when the whole declared box has been streamed, and the
    id in it is the hash of the Ergo serialization of that box. *)
Theorem C11_box_id : forall E key tr st p2 data r frame, env_ok E ->
  history E key (tr ++ [(Apdu CLA INS_ATTEST 5 p2 data r, [OResp frame SW_OK])]) st ->
  exists start body, session_of INS_ATTEST tr = Some (start, body) /\
    sb_complete (streamed_box start body) = true /\
    firstn 32 frame = e_blake E (box_bytes (streamed_box start body)).
Proof. exact attested_id. Qed.
Print Assumptions C11_box_id.

Example C11_ex : exists start body, session_of INS_ATTEST (trace ATTEST) = Some (start, body) /\
  let b := streamed_box start body in
  b = mk_sb (repeat 1 32) 2 1000000000 36 500 1 0 (Some BOX_TREE) [(TOKEN_A, 1000)] [] /\
  trace ATTEST_FRAME = trace ATTEST ++ [(cmd_of INS_ATTEST 5 7 [0], [OResp FRAME SW_OK])] /\
  history toy TOY_KEY (trace ATTEST_FRAME) (final ATTEST_FRAME) /\
  firstn 32 FRAME = toy_hash (box_bytes b).
Proof.
  assert (H : history toy TOY_KEY (trace ATTEST_FRAME) (final ATTEST_FRAME)) by (apply trace_history; vm_compute; reflexivity).
  eexists _, _. split; [vm_compute; reflexivity|]. cbv zeta. split; [vm_compute; reflexivity|].
  split; [vm_compute; reflexivity|]. split; [exact H|vm_compute; reflexivity].
Qed.

(** C12.  Two ways of cutting the same script, token list or registers, both accepted from
    the same state, end in the same state: bytes hashed, progress and everything the
    callbacks have collected. *)
Theorem C12_tree : forall A (cb : box_callbacks A) s l1 l2 s1 s2, l1 <> [] -> l2 <> [] -> concat l1 = concat l2 ->
  feed (box_add_tree cb) s l1 = Some s1 -> feed (box_add_tree cb) s l2 = Some s2 -> s1 = s2.
Proof. exact tree_chunks_same. Qed.
Print Assumptions C12_tree.
Theorem C12_tokens : forall A (cb : box_callbacks A) table s l1 l2 s1 s2, l1 <> [] -> l2 <> [] -> concat l1 = concat l2 ->
  feed (fun s d => box_add_tokens cb s d table) s l1 = Some s1 ->
  feed (fun s d => box_add_tokens cb s d table) s l2 = Some s2 -> s1 = s2.
Proof. exact tokens_chunks_same. Qed.
Print Assumptions C12_tokens.
Theorem C12_registers : forall A (cb : box_callbacks A) s l1 l2 s1 s2, l1 <> [] -> l2 <> [] -> concat l1 = concat l2 ->
  feed (box_add_registers cb) s l1 = Some s1 -> feed (box_add_registers cb) s l2 = Some s2 -> s1 = s2.
Proof. exact regs_chunks_same. Qed.
Print Assumptions C12_registers.
(** Two attestations, on any two devices, with the same start command and the same data
    in all, describe the same box; so (C11, C27) the same id and frame contents. *)
Theorem C12_attested : forall E1 key1 tr1 st1 start1 body1 E2 key2 tr2 st2 start2 body2,
  env_ok E1 -> env_ok E2 -> history E1 key1 tr1 st1 -> history E2 key2 tr2 st2 ->
  session_of INS_ATTEST tr1 = Some (start1, body1) -> session_of INS_ATTEST tr2 = Some (start2, body2) ->
  sb_complete (streamed_box start1 body1) = true -> sb_complete (streamed_box start2 body2) = true ->
  firstn 55 (start_data start1) = firstn 55 (start_data start2) ->
  (forall sub, In sub [2; 3; 4] -> concat (pieces INS_ATTEST sub body1) = concat (pieces INS_ATTEST sub body2)) ->
  streamed_box start1 body1 = streamed_box start2 body2.
Proof. exact same_pieces_same_box. Qed.
Print Assumptions C12_attested.

(** A script of 300 bytes cut in two ways; two tokens and ten register bytes likewise. *)
Definition chunk_events (l : list (N * bytes)) : list event :=
  [attest_start 1 (repeat 1 32) 2 1000000000 300 500 2 10 []; UiApprove] ++ map (fun x => cmd_of INS_ATTEST (fst x) 7 (snd x)) l.
Definition TWO_TOKENS : bytes := TOKEN_A ++ be_bytes 8 1 ++ TOKEN_B ++ be_bytes 8 2.
Definition CHUNKS1 : list event :=
  chunk_events [(2, repeat 3 255); (2, repeat 3 45); (3, TWO_TOKENS); (4, repeat 9 10)].
Definition CHUNKS2 : list event :=
  chunk_events [(2, repeat 3 255); (2, repeat 3 45); (3, firstn 40 TWO_TOKENS); (3, []); (3, skipn 40 TWO_TOKENS); (4, repeat 9 3); (4, repeat 9 7)].
Example C12_ex : playable CHUNKS1 = true /\ playable CHUNKS2 = true /\ answer CHUNKS1 = [1] /\ answer CHUNKS2 = [1] /\
  match session_of INS_ATTEST (trace CHUNKS1), session_of INS_ATTEST (trace CHUNKS2) with
  | Some (s1, b1), Some (s2, b2) => sb_complete (streamed_box s1 b1) = true /\ sb_complete (streamed_box s2 b2) = true /\
      pieces INS_ATTEST 3 b1 <> pieces INS_ATTEST 3 b2
  | _, _ => False
  end.
Proof. vm_compute. do 4 (split; [reflexivity|]). do 2 (split; [reflexivity|]). discriminate. Qed.
Example C12_tree_ex : let cb := mk_box_callbacks None None None in
  let s := snd (box_init 5 600 1 0 0 [] (tt : unit)) in
  feed (box_add_tree cb) s [repeat 1 255; repeat 1 345] = feed (box_add_tree cb) s [repeat 1 300; repeat 1 300] /\
  feed (box_add_tree cb) s [repeat 1 300; repeat 1 300] <> None.
Proof. vm_compute. split; [reflexivity|discriminate]. Qed.

(** C13, boxes.  Never more than declared, parts in order, and the end exactly when
    everything declared has arrived (C27_count). *)
Theorem C13_box_sizes : forall E key tr st start body, env_ok E -> history E key tr st ->
  session_of INS_ATTEST tr = Some (start, body) ->
  let b := streamed_box start body in
  (forall t, sb_tree b = Some t -> blen t <= sb_tree_len b) /\
  blen (sb_tokens b) <= sb_ntokens b /\ blen (sb_regs b) <= sb_regs_len b /\
  (sb_tokens b <> [] -> exists t, sb_tree b = Some t /\ blen t = sb_tree_len b) /\
  (sb_regs b <> [] -> blen (sb_tokens b) = sb_ntokens b).
Proof. exact attest_sizes. Qed.
Print Assumptions C13_box_sizes.
(** Scripts of up to 255 bytes arrive in one piece. *)
Theorem C13_small_trees : forall A (cb : box_callbacks A) s chunk r s', bx_tree_size (bs_box s) <= 255 ->
  box_add_tree cb s chunk = (r, s') -> res_pass r = true -> blen chunk = bx_tree_size (bs_box s).
Proof. exact @small_tree_one_chunk. Qed.
Print Assumptions C13_small_trees.
Example C13_ex : exists start body, session_of INS_ATTEST (trace CHUNKS1) = Some (start, body) /\
  sb_regs (streamed_box start body) = repeat 9 10 /\
  history toy TOY_KEY (trace CHUNKS1) (final CHUNKS1).
Proof.
  assert (H : history toy TOY_KEY (trace CHUNKS1) (final CHUNKS1)) by (apply trace_history; vm_compute; reflexivity).
  eexists _, _. split; [vm_compute; reflexivity|]. split; [vm_compute; reflexivity|exact H].
Qed.

(** C27.  A frame carries the id, the number of frames, its index, the value and its four
    tokens, and the tag of these under the device key. *)
Theorem C27_frame : forall E key tr st p2 data r frame, env_ok E ->
  history E key (tr ++ [(Apdu CLA INS_ATTEST 5 p2 data r, [OResp frame SW_OK])]) st ->
  exists start body i, session_of INS_ATTEST tr = Some (start, body) /\
    let b := streamed_box start body in
    data = [i] /\ i < frame_total b /\ frame = tagged E key (frame_of E b i) /\
    slice 0 32 frame = box_id E b /\ num 32 1 frame = frame_total b /\ num 33 1 frame = i /\ num 34 8 frame = sb_value b /\
    frame_tokens frame = firstn 4 (skipn (4 * N.to_nat i) (sb_tokens b)).
Proof. exact attested_frame_spec. Qed.
Print Assumptions C27_frame.
(** When the box is complete the device answers with the number of frames; each of them is
    then answered, and together they list the tokens of the box once and in order. *)
Theorem C27_count : forall E key tr st sub p2 data r n, env_ok E -> In sub [2; 3; 4] ->
  history E key (tr ++ [(Apdu CLA INS_ATTEST sub p2 data r, [OResp [n] SW_OK])]) st ->
  exists start body, session_of INS_ATTEST (tr ++ [(Apdu CLA INS_ATTEST sub p2 data r, [OResp [n] SW_OK])]) = Some (start, body) /\
    let b := streamed_box start body in
    sb_complete b = true /\ n = frame_total b /\
    (forall i r', i < n -> step E st (Apdu CLA INS_ATTEST 5 p2 [i] r') = (st, [OResp (tagged E key (frame_of E b i)) SW_OK])) /\
    concat (map (fun i => frame_tokens (tagged E key (frame_of E b (N.of_nat i)))) (seq 0 (N.to_nat n))) = sb_tokens b.
Proof. exact attested_count. Qed.
Print Assumptions C27_count.
Example C27_ex : trace ATTEST = removelast (trace ATTEST) ++ [(cmd_of INS_ATTEST 3 7 (TOKEN_A ++ be_bytes 8 1000), [OResp [1] SW_OK])] /\
  playable ATTEST = true /\ frame_tokens FRAME = [(TOKEN_A, 1000)] /\ num 34 8 FRAME = 1000000000.
Proof. vm_compute. auto. Qed.

(** C28 *)
Theorem C28_tokens_once : forall E key tr st start body, env_ok E -> history E key tr st ->
  session_of INS_ATTEST tr = Some (start, body) ->
  NoDup (map fst (sb_tokens (streamed_box start body))) /\ (length (sb_tokens (streamed_box start body)) <= 20)%nat.
Proof. exact attest_once. Qed.
Print Assumptions C28_tokens_once.
(** The second of two equal tokens is refused. *)
Definition TWICE : list event := chunk_events [(2, repeat 3 255); (2, repeat 3 45); (3, TOKEN_A ++ be_bytes 8 1); (3, TOKEN_A ++ be_bytes 8 2)].
Example C28_ex : playable TWICE = true /\ map snd (skipn 4 (trace TWICE)) = [[OResp [] SW_OK]; [OResp [] SW_BAD_TOKEN_ID]].
Proof. vm_compute. auto. Qed.
