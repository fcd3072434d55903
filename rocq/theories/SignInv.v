(** The state of a signing operation as a function of the transaction described so far. *)
From Verif Require Import Lib Env SpecVlq SpecTree SpecTx SpecAmounts Bip32 ErgoTree TxTable TxBox TxInput
  TxFull Amounts OutputInfo P2pkOp App BoxProofs AmountProofs.

#[local] Arguments N.eqb : simpl never.
#[local] Arguments N.ltb : simpl never.
#[local] Arguments N.leb : simpl never.
#[local] Arguments N.sub : simpl never.
#[local] Arguments blen : simpl never.

(** ** Lists *)

Definition last_of {A} (l : list A) : option A := match rev l with x :: _ => Some x | [] => None end.

Lemma last_of_snoc : forall A (l : list A) x, last_of (l ++ [x]) = Some x.
Proof. intros. unfold last_of. rewrite rev_app_distr. reflexivity. Qed.
Lemma snoc_cases : forall A (l : list A), l = [] \/ exists pre x, l = pre ++ [x].
Proof. intros A l. destruct (rev l) as [|x r] eqn:E.
  - left. apply (f_equal (@rev A)) in E. rewrite rev_involutive in E. assumption.
  - right. exists (rev r), x. apply (f_equal (@rev A)) in E. rewrite rev_involutive in E. assumption.
Qed.
Lemma snoc_inj : forall A (a b : list A) x y, a ++ [x] = b ++ [y] -> a = b /\ x = y.
Proof. intros. apply app_inj_tail in H. assumption. Qed.
Lemma snoc_not_nil : forall A (a : list A) x, a ++ [x] <> [].
Proof. intros A a x H. destruct a; discriminate. Qed.
Lemma upd_last_snoc : forall A (f : A -> A) l x, upd_last f (l ++ [x]) = l ++ [f x].
Proof.
  intros A f. induction l as [|y l IH]; intro x; [reflexivity|].
  cbn [app]. destruct (l ++ [x]) as [|z r] eqn:E; [exfalso; eapply snoc_not_nil; eassumption|].
  change (upd_last f (y :: z :: r)) with (y :: upd_last f (z :: r)). rewrite <- E, IH. reflexivity.
Qed.
Lemma count_app : forall A (f : A -> bool) a b, count_complete f (a ++ b) = count_complete f a + count_complete f b.
Proof. intros. unfold count_complete. rewrite filter_app, blen_app. reflexivity. Qed.
Lemma count_one : forall A (f : A -> bool) x, count_complete f [x] = if f x then 1 else 0.
Proof. intros. unfold count_complete. cbn. destruct (f x); reflexivity. Qed.
Lemma count_nil : forall A (f : A -> bool), count_complete f [] = 0.
Proof. reflexivity. Qed.
Lemma count_le : forall A (f : A -> bool) l, count_complete f l <= blen l.
Proof.
  intros A f. induction l as [|x l IH]; [reflexivity|]. change (x :: l) with ([x] ++ l).
  rewrite count_app, count_one, blen_app. destruct (f x); change (blen [x]) with 1; lia.
Qed.
Lemma count_all : forall A (f : A -> bool) l, Forall (fun x => f x = true) l -> count_complete f l = blen l.
Proof.
  intros A f l. induction 1 as [|x l Hx Hl IH]; [reflexivity|]. change (x :: l) with ([x] ++ l).
  rewrite count_app, count_one, blen_app, Hx, IH. reflexivity.
Qed.
Lemma Forall_snoc : forall A (P : A -> Prop) l x, Forall P (l ++ [x]) <-> Forall P l /\ P x.
Proof.
  intros. rewrite Forall_app. split; intros [H1 H2]; split; try assumption.
  - inv H2. assumption.
  - constructor; [assumption|constructor].
Qed.

(** ** The current output *)

Definition o_type (o : s_output) : box_type :=
  match so_dest o with Some SD_FEE => BT_FEE | Some (SD_CHANGE _) => BT_CHANGE | _ => BT_TREE end.
Definition o_tree (E : env) (o : s_output) : bytes :=
  match so_dest o with Some d => dest_tree E d | None => [] end.
Definition g_of (E : env) (o : s_output) : gbox :=
  mk_g (so_value o) (so_tree_len o) (so_height o) (so_ntokens o) (so_regs_len o) (o_type o) (o_tree E o)
       (tree_complete o) (map token_bytes (so_tokens o)) (so_regs o).

Lemma blen_map : forall A B (f : A -> B) l, blen (map f l) = blen l.
Proof. intros. unfold blen. rewrite map_length. reflexivity. Qed.
Lemma g_of_bytes : forall E o, gbytes (g_of E o) = output_bytes_so_far E o.
Proof. intros. unfold gbytes, g_of, output_bytes_so_far. cbn. rewrite blen_map. reflexivity. Qed.
Lemma g_of_finished : forall E o, g_finished (g_of E o) = output_complete o.
Proof. intros. unfold g_finished, g_of, output_complete. cbn. rewrite blen_map. reflexivity. Qed.

Definition change_ok (E : env) (p : list N) : Prop :=
  ergo_path_validate p V_ADDRESS_GE5 = true /\ (length p <= 10)%nat /\
  exists sk c w, e_derive E p = Some (sk, c) /\ e_mulG E sk = Some w.

(** [n]: number of distinct tokens. *)
Record out_wf (E : env) (n : N) (o : s_output) : Prop := mk_ow {
  ow_g : gwf (g_of E o);
  ow_chunk : forall t, so_dest o = Some (SD_TREE t) -> tree_complete o = false -> 255 <= blen t;
  ow_change : forall p, so_dest o = Some (SD_CHANGE p) -> change_ok E p;
  ow_tokens : Forall (fun t => fst t < n /\ snd t < two64) (so_tokens o) }.

(** ** The current input *)

Definition frames_in (i : s_input) : bool := blen (si_frames i) =? si_count i.
Definition in_of (i : s_input) : input_ctx :=
  mk_input (if negb (frames_in i) then IN_FRAMES_STARTED
            else if blen (si_ext i) =? si_ext_len i then IN_FINISHED else IN_EXTENSION_STARTED)
           (si_id i) (si_count i) (blen (si_frames i)) (si_ext_len i - blen (si_ext i)).
Definition in_bytes (i : s_input) : bytes :=
  if frames_in i then si_id i ++ [0] ++ (if si_ext_len i =? 0 then [0] else si_ext i) else [].

Definition tok_ok (t : bytes * N) : Prop := length (fst t) = 32%nat /\ snd t < two64.
Record in_wf (i : s_input) : Prop := mk_iw {
  iw_id : length (si_id i) = 32%nat;
  iw_value : si_value i < two64;
  iw_frames : 1 <= blen (si_frames i) <= si_count i;
  iw_count : si_count i < 256;
  iw_ext1 : si_ext_len i <> 1;
  iw_ext_len : si_ext_len i <= 32768;
  iw_ext : blen (si_ext i) <= si_ext_len i;
  iw_ext0 : frames_in i = false -> si_ext i = [];
  iw_tokens : Forall (Forall tok_ok) (si_frames i) }.

(** ** The whole *)

Definition done_inputs (d : s_tx) : N := count_complete input_complete (sx_inputs d).
Definition done_outputs (d : s_tx) : N := count_complete output_complete (sx_outputs d).
Definition tokens_in (d : s_tx) (h : s_head) : bool := blen (sx_tokens d) =? sh_tokens h.
Definition inputs_in (d : s_tx) (h : s_head) : bool := done_inputs d =? sh_inputs h.
Definition data_in (d : s_tx) (h : s_head) : bool := blen (sx_data d) =? sh_data h.
Definition outputs_in (d : s_tx) (h : s_head) : bool := done_outputs d =? sh_outputs h.

Definition phase_of (d : s_tx) (h : s_head) : full_state :=
  if negb (tokens_in d h) then FL_TOKENS_STARTED
  else if negb (inputs_in d h) then FL_INPUTS_STARTED
  else if negb (data_in d h) then FL_DATA_INPUTS_STARTED
  else if negb (outputs_in d h) then FL_OUTPUTS_STARTED
  else FL_FINISHED.
Definition union_of (E : env) (d : s_tx) (h : s_head) : full_union :=
  match last_of (sx_outputs d) with
  | Some o => FU_BOX (gstate (g_of E o)) true
  | None =>
      match last_of (sx_inputs d) with
      | Some i => FU_INPUT (in_of i) true
      | None => if tokens_in d h then FU_INPUT input_finished_ctx false else FU_ZERO
      end
  end.
Definition full_of (E : env) (d : s_tx) (h : s_head) : full :=
  mk_full (phase_of d h) (sh_inputs h - done_inputs d) (sh_data h - blen (sx_data d))
          (sh_outputs h - done_outputs d) (sh_tokens h) (union_of E d h).

(** Bytes hashed so far. *)
Definition tx_bytes (E : env) (d : s_tx) (h : s_head) : bytes :=
  vlq (sh_inputs h) ++ concat (map in_bytes (sx_inputs d)) ++
  if inputs_in d h then
    vlq (sh_data h) ++ concat (sx_data d) ++
    if data_in d h then
      vlq (sh_tokens h) ++ concat (sx_tokens d) ++ vlq (sh_outputs h) ++
      concat (map (output_bytes_so_far E) (sx_outputs d))
    else []
  else [].

(** A token id is not repeated after a non-zero amount. *)
Definition once (l : list (bytes * N)) : Prop :=
  forall a x b, l = a ++ x :: b -> snd x <> 0 -> ~ In (fst x) (map fst b).

Record wf (E : env) (d : s_tx) (h : s_head) : Prop := mk_wf {
  w_head : sx_head d = Some h;
  w_inputs : 0 < sh_inputs h < two16;
  w_data : sh_data h < two16;
  w_outputs : 0 < sh_outputs h < two16;
  w_tokens : sh_tokens h <= 20;
  w_tok_le : blen (sx_tokens d) <= sh_tokens h;
  w_tok_ids : Forall (fun t => length t = 32%nat) (sx_tokens d);
  w_in_tokens : sx_inputs d <> [] -> tokens_in d h = true;
  w_in_wf : Forall in_wf (sx_inputs d);
  w_in_last : forall pre i, sx_inputs d = pre ++ [i] -> Forall (fun x => input_complete x = true) pre;
  w_in_le : blen (sx_inputs d) <= sh_inputs h;
  w_data_inputs : sx_data d <> [] -> inputs_in d h = true;
  w_data_le : blen (sx_data d) <= sh_data h;
  w_data_ids : Forall (fun t => length t = 32%nat) (sx_data d);
  w_out_in : sx_outputs d <> [] -> inputs_in d h = true /\ data_in d h = true;
  w_out_wf : Forall (out_wf E (sh_tokens h)) (sx_outputs d);
  w_out_le : forall pre o, sx_outputs d = pre ++ [o] -> count_complete output_complete pre < sh_outputs h;
  w_once : Forall (fun o => once (tokens_of d o)) (sx_outputs d) }.

(** ** Amounts *)

Definition add_id (t : list bytes) (id : bytes) : list bytes :=
  if existsb (bytes_eqb id) t then t else t ++ [id].
Definition table_of (d : s_tx) : list bytes := fold_left add_id (map fst (input_tokens d)) (sx_tokens d).

Record amounts_rel (d : s_tx) (a : amounts) : Prop := mk_ar {
  ra_fee : am_fee a = fees d;
  ra_value : am_value a + fees d + change d = total_in d;
  ra_max : total_in d < two64;
  ra_table : am_table a = table_of d;
  ra_tokens : am_rel a (balance d) }.

(** ** Information on the current output *)

Definition script_type (E : env) (o : s_output) (t : bytes) : out_type :=
  if output_complete o then OT_SCRIPT_DONE (e_blake E t) else OT_SCRIPT t.
Definition tree_type (E : env) (o : s_output) (t : bytes) : out_type :=
  if tree_complete o then
    match oi_type (classify_first_chunk (output_info_init 0) t true) with
    | OT_SCRIPT _ => script_type E o t
    | x => x
    end
  else OT_SCRIPT t.
Definition out_type_of (E : env) (o : s_output) : out_type :=
  match so_dest o with
  | None => OT_UNKNOWN
  | Some SD_FEE => OT_MINERS_FEE
  | Some (SD_CHANGE p) => OT_BIP32 p
  | Some (SD_TREE t) => tree_type E o t
  end.
Record oinfo_rel (E : env) (d : s_tx) (o : s_output) (i : output_info) : Prop := mk_oir {
  ri_value : oi_value i = so_value o;
  ri_tokens : oi_rel (oi_tokens i) (table_of d) (fun id => amount_of id (tokens_of d o));
  ri_type : oi_type i = out_type_of E o;
  ri_tree_set : oi_tree_set i = tree_complete o;
  ri_finished : oi_box_finished i = output_complete o }.
Definition last_info (E : env) (d : s_tx) (i : option output_info) : Prop :=
  match last_of (sx_outputs d) with
  | None => i = None
  | Some o => exists x, i = Some x /\ oinfo_rel E d o x
  end.

(** ** Flags *)

(** The path remembered after an approval. *)
Definition approved_path (acc : list N) (o : s_output) : list N :=
  if so_shown o then
    if so_approved o then match so_dest o with Some (SD_CHANGE p) => p | _ => [] end else []
  else acc.
Definition last_approved (l : list s_output) : list N := fold_left approved_path l [].

(** The output is accepted without asking ([path]: the signing key's, [last]: approved). *)
Definition silent (d : s_tx) (path last : list N) (o : s_output) : bool :=
  match so_dest o with
  | Some SD_FEE => forallb (fun id => amount_of id (tokens_of d o) =? 0) (table_of d)
  | Some (SD_CHANGE p) =>
      ergo_path_validate p V_ADDRESS_E5 &&
      (bip32_path_is_equal p last ||
       (bip32_path_same_account p path && (nth 3 p 0 =? nth 3 path 0) && (nth 4 p 0 <? u32 (nth 4 path 0 + 20))))
  | _ => false
  end.
Definition settled (d : s_tx) (path : list N) (l : list s_output) : Prop :=
  forall pre o post, l = pre ++ o :: post ->
    so_shown o = output_complete o && negb (silent d path (last_approved pre) o) /\
    so_approved o = so_shown o.
(** The current output is not shown yet; the others are settled. *)
Definition fresh (d : s_tx) (path : list N) (l : list s_output) : Prop :=
  forall pre o, l = pre ++ [o] -> settled d path pre /\ so_shown o = false /\ so_approved o = false.

(** ** The operation *)

Definition op_phase (d : s_tx) (h : s_head) : op_state :=
  match sx_outputs d with
  | [] => match sx_inputs d with [] => OP_TX_STARTED | _ => OP_INPUTS_STARTED end
  | _ => if outputs_in d h then OP_TX_FINISHED else OP_OUTPUTS_STARTED
  end.

(** Fixed for a session: nonce, path, the start of the hashed bytes, network. *)
Record session := mk_ses { ss_key : bytes; ss_path : list N; ss_prefix : bytes; ss_network : N }.

Definition op_fixed (s : session) (op : p2pk) : Prop :=
  op_key op = ss_key s /\ op_path op = ss_path s /\ op_network op = ss_network s.

(** Before the transaction starts. *)
Definition op_new (s : session) (op : p2pk) : Prop :=
  op_fixed s op /\ op_state_of op = OP_INITIALIZED /\ op_hash op = ss_prefix s /\
  op_amounts op = amounts_init /\ exists t, op_union_of op = OU_APPROVE t.
(** While it is being streamed. *)
Definition op_tx (E : env) (s : session) (d : s_tx) (h : s_head) (op : p2pk) : Prop :=
  op_fixed s op /\ op_state_of op = op_phase d h /\ op_hash op = ss_prefix s ++ tx_bytes E d h /\
  amounts_rel d (op_amounts op) /\
  exists oi, last_info E d oi /\
    op_union_of op = OU_TX (mk_tx (full_of E d h) oi (last_approved (sx_outputs d))).
(** After the final confirmation was put on the screen. *)
Definition op_final (E : env) (s : session) (d : s_tx) (h : s_head) (op : p2pk) : Prop :=
  op_fixed s op /\ op_state_of op = OP_FINALIZED /\ op_hash op = ss_prefix s ++ tx_bytes E d h /\
  amounts_rel d (op_amounts op) /\ op_union_of op = OU_CONFIRM /\ op_phase d h = OP_TX_FINISHED.
