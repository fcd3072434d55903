(** What a wallet sends for a box or a transaction it wants attested or signed
    (doc/INS-20-ATTEST-BOX.md, doc/INS-21-SIGN-TRANSACTION.md), and which boxes and
    transactions are within the limits of the device. *)
From Verif Require Import Base Env UiFlow App SpecTree SpecTrace SpecTx SpecAmounts SpecApdu SpecScreen SpecRequest SpecSign SpecRules SpecAccept SpecStart.

(** A command of a session: subcommand and data. *)
Definition command := (N * bytes)%type.
(** Data cut into packets; a script takes at least one. *)
Definition packets (sub : N) (n : nat) (l : bytes) : list command := map (pair sub) (entries n l).
Definition script_packets (sub : N) (t : bytes) : list command :=
  match t with [] => [(sub, [])] | _ => packets sub 255 t end.
Definition numbers (n : N) : list N := map N.of_nat (seq 0 (N.to_nat n)).
Definition octets (n : nat) (l : bytes) : Prop := length l = n /\ bytes_ok l = true.

(** ** Boxes *)

Record w_box := mk_wb {
  wb_tx_id : bytes; wb_index : N; wb_value : N; wb_height : N;
  wb_tree : bytes; wb_tokens : list (bytes * N); wb_regs : bytes }.
Definition described (b : w_box) : s_box :=
  mk_sb (wb_tx_id b) (wb_index b) (wb_value b) (blen (wb_tree b)) (wb_height b) (blen (wb_tokens b)) (blen (wb_regs b))
        (Some (wb_tree b)) (wb_tokens b) (wb_regs b).
(** Fields in their ranges, each part at most 32768 bytes, at most 20 tokens, no token twice. *)
Definition box_fits (b : w_box) : Prop :=
  octets 32 (wb_tx_id b) /\ wb_index b < 2 ^ 16 /\ wb_value b < 2 ^ 64 /\ wb_height b < 2 ^ 32 /\
  bytes_ok (wb_tree b) = true /\ blen (wb_tree b) <= PART_MAX /\
  Forall (fun t => octets 32 (fst t) /\ snd t < 2 ^ 64) (wb_tokens b) /\ blen (wb_tokens b) <= TOKENS_MAX /\ NoDup (map fst (wb_tokens b)) /\
  bytes_ok (wb_regs b) = true /\ blen (wb_regs b) <= PART_MAX.

Definition box_header (b : w_box) : bytes :=
  wb_tx_id b ++ be_bytes 2 (wb_index b) ++ be_bytes 8 (wb_value b) ++ be_bytes 4 (blen (wb_tree b)) ++ be_bytes 4 (wb_height b) ++
  be_bytes 1 (blen (wb_tokens b)) ++ be_bytes 4 (blen (wb_regs b)).
Definition box_commands (b : w_box) : list command :=
  script_packets 0x02 (wb_tree b) ++
  packets 0x03 240 (concat (map (fun t => fst t ++ be_bytes 8 (snd t)) (wb_tokens b))) ++
  packets 0x04 255 (wb_regs b).
Definition frame_numbers (b : w_box) : list N := numbers (frame_total (described b)).

(** The random source gives nonces of 32 bytes and ids of one. *)
Definition rnd_ok (r : rnd) : Prop :=
  Forall (fun k => length k = 32%nat /\ bytes_ok k = true) (r_nonces r) /\ Forall (fun i => i < 256) (r_ids r).
(** The host's requests and the user's approvals for a box, up to its frames. *)
Definition attest_events (b : w_box) (sid : N) (r : rnd) : list event :=
  Apdu CLA INS_ATTEST 1 1 (box_header b) r :: UiApprove ::
  map (fun c => Apdu CLA INS_ATTEST (fst c) sid (snd c) r) (box_commands b).
(** The exchanges that fetch the frames of [b]. *)
Definition frame_exchanges (E : env) (key : bytes) (b : w_box) (sid : N) (r : rnd) : list obs :=
  map (fun i => (Apdu CLA INS_ATTEST 0x05 sid [i] r, [OResp (tagged E key (frame_of E (described b) i)) SW_OK])) (frame_numbers b).

(** ** Transactions *)

Record w_output := mk_wo { wo_value : N; wo_height : N; wo_dest : destination; wo_tokens : list (N * N); wo_regs : bytes }.
(** Inputs with their context extensions; data inputs; distinct tokens. *)
Record w_tx := mk_wtx { w_tokens : list bytes; w_inputs : list (w_box * bytes); w_data : list bytes; w_outputs : list w_output }.

(** Tokens by frame: four a frame, one frame at least. *)
Definition framed (b : w_box) : list (list (bytes * N)) :=
  map (fun i => firstn 4 (skipn (4 * N.to_nat i) (wb_tokens b))) (frame_numbers b).
Definition wanted_input (E : env) (x : w_box * bytes) : s_input :=
  let b := fst x in
  mk_si (box_id E (described b)) (wb_value b) (frame_total (described b)) (framed b) (blen (snd x)) (snd x).
Definition declared_len (d : destination) : N := match d with SD_TREE t => blen t | _ => 0 end.
Definition wanted_output (o : w_output) : s_output :=
  mk_so (wo_value o) (declared_len (wo_dest o)) (wo_height o) (blen (wo_tokens o)) (blen (wo_regs o))
        (Some (wo_dest o)) (wo_tokens o) (wo_regs o) false false.
Definition wanted (E : env) (w : w_tx) : s_tx :=
  mk_stx (Some (mk_sh (blen (w_inputs w)) (blen (w_data w)) (blen (w_tokens w)) (blen (w_outputs w))))
         (w_tokens w) (map (wanted_input E) (w_inputs w)) (w_data w) (map wanted_output (w_outputs w)).

Definition dest_fits (E : env) (d : destination) : Prop :=
  match d with
  | SD_TREE t => bytes_ok t = true /\ blen t <= PART_MAX
  | SD_FEE => True
  | SD_CHANGE p => is_address_path p /\ Forall (fun x => x < 2 ^ 32) p /\ (length p <= 10)%nat /\ derivable E p
  end.
Definition output_fits (E : env) (w : w_tx) (o : w_output) : Prop :=
  wo_value o < 2 ^ 64 /\ wo_height o < 2 ^ 32 /\ dest_fits E (wo_dest o) /\
  Forall (fun t => fst t < blen (w_tokens w) /\ snd t < 2 ^ 64) (wo_tokens o) /\ blen (wo_tokens o) <= TOKENS_MAX /\
  no_repeat (tokens_of (wanted E w) (wanted_output o)) /\
  bytes_ok (wo_regs o) = true /\ blen (wo_regs o) <= PART_MAX.
Definition input_fits (x : w_box * bytes) : Prop :=
  box_fits (fst x) /\ bytes_ok (snd x) = true /\ blen (snd x) <> 1 /\ blen (snd x) <= PART_MAX.
(** The parts fit, there are at most 20 tokens in all, the inputs pay for fee and change,
    totals of token amounts stay below 2^63. *)
Definition tx_fits (E : env) (w : w_tx) : Prop :=
  0 < blen (w_inputs w) < 2 ^ 16 /\ blen (w_data w) < 2 ^ 16 /\ 0 < blen (w_outputs w) < 2 ^ 16 /\
  Forall (octets 32) (w_tokens w) /\ Forall input_fits (w_inputs w) /\ Forall (octets 32) (w_data w) /\
  Forall (output_fits E w) (w_outputs w) /\
  blen (w_tokens w) + blen (undeclared (wanted E w)) <= TOKENS_MAX /\
  in_range (wanted E w) /\ forall id, amount_of id (input_tokens (wanted E w)) < 2 ^ 63.

(** The frames of an input as the device gave them out, and its context extension. *)
Definition input_commands (E : env) (key : bytes) (x : w_box * bytes) : list command :=
  map (fun i => (0x12, tagged E key (frame_of E (described (fst x)) i) ++ (if i =? 0 then be_bytes 4 (blen (snd x)) else [])))
      (frame_numbers (fst x)) ++
  packets 0x13 255 (snd x).
Definition dest_commands (d : destination) : list command :=
  match d with
  | SD_TREE t => script_packets 0x16 t
  | SD_FEE => [(0x17, [])]
  | SD_CHANGE p => [(0x18, be_bytes 1 (blen p) ++ concat (map (be_bytes 4) p))]
  end.
Definition output_commands (o : w_output) : list command :=
  [(0x15, be_bytes 8 (wo_value o) ++ be_bytes 4 (declared_len (wo_dest o)) ++ be_bytes 4 (wo_height o) ++
          be_bytes 1 (blen (wo_tokens o)) ++ be_bytes 4 (blen (wo_regs o)))] ++
  dest_commands (wo_dest o) ++
  packets 0x19 252 (concat (map (fun t => be_bytes 4 (fst t) ++ be_bytes 8 (snd t)) (wo_tokens o))) ++
  packets 0x1A 255 (wo_regs o).
Definition tx_commands (E : env) (key : bytes) (w : w_tx) : list command :=
  [(0x10, be_bytes 2 (blen (w_inputs w)) ++ be_bytes 2 (blen (w_data w)) ++ be_bytes 1 (blen (w_tokens w)) ++ be_bytes 2 (blen (w_outputs w)))] ++
  packets 0x11 224 (concat (w_tokens w)) ++
  concat (map (input_commands E key) (w_inputs w)) ++
  packets 0x14 224 (concat (w_data w)) ++
  concat (map output_commands (w_outputs w)).

(** The requests of the host among the events; the user only approved. *)
Definition requests (tr : list obs) : list event := filter (fun e => negb (by_user e)) (map fst tr).
Definition user_approves (tr : list obs) : Prop := Forall (fun o => by_user (fst o) = true -> fst o = UiApprove) tr.
Definition all_accepted (tr : list obs) : Prop := Forall (fun o => accepted (snd o) = true) tr.

(** The requests of a signing session from its start, with parameter [p2] and data [start],
    to the last one. *)
Definition sign_requests (E : env) (key : bytes) (w : w_tx) (p2 : N) (start : bytes) (sid : N) (r : rnd) : list event :=
  Apdu CLA INS_SIGN 1 p2 start r ::
  map (fun c => Apdu CLA INS_SIGN (fst c) sid (snd c) r) (tx_commands E key w ++ [(0x20, [])]).
(** The signature of [msg] in this session cannot be computed: the first 24 bytes of the
    hash are all zero. *)
Definition zero_challenge (E : env) (start : obs) (msg : bytes) : Prop :=
  exists secret nonce pk w, session_secret E start secret /\ In nonce (session_nonces start) /\
    e_mulG E secret = Some pk /\ e_mulG E nonce = Some w /\
    be_value (challenge E (compressed pk) (compressed w) msg) = 0.
