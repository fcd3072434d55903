(** The transaction described by the accepted commands of a signing session, and the box
    described by those of an attestation session.  This reading of the commands trusts
    them: it checks nothing and only cuts the documented fields out of the data
    (doc/INS-21-SIGN-TRANSACTION.md, doc/INS-20-ATTEST-BOX.md). *)
From Verif Require Import Base Env UiFlow App SpecVlq SpecTree SpecTrace.

Definition slice (off n : nat) (l : bytes) : bytes := firstn n (skipn off l).
(** Big-endian number at an offset. *)
Definition num (off n : nat) (l : bytes) : N := be_value (slice off n l).
(** Consecutive [n]-byte entries (the last one may be shorter). *)
Fixpoint entries_fuel (fuel n : nat) (l : bytes) : list bytes :=
  match fuel, l with
  | O, _ | _, [] => []
  | S k, _ => firstn n l :: entries_fuel k n (skipn n l)
  end.
Definition entries (n : nat) (l : bytes) : list bytes := entries_fuel (length l) n l.
(** Apply to the last element. *)
Fixpoint upd_last {A} (f : A -> A) (l : list A) : list A :=
  match l with
  | [] => []
  | [x] => [f x]
  | x :: t => x :: upd_last f t
  end.
(** Key path: number of components, then four bytes each. *)
Definition path_at (off : nat) (l : bytes) : list N :=
  map (fun i => num (off + 1 + 4 * i) 4 l) (seq 0 (N.to_nat (num off 1 l))).

(** * Signing *)

(** One input: box id, value and token amounts as stated in its frames. *)
Record s_input := mk_si {
  si_id : bytes; si_value : N; si_count : N;
  si_frames : list (list (bytes * N));
  si_ext_len : N; si_ext : bytes }.
Inductive destination := SD_TREE (t : bytes) | SD_FEE | SD_CHANGE (p : list N).
(** One output.  [so_tokens]: index into the distinct tokens, amount. *)
Record s_output := mk_so {
  so_value : N; so_tree_len : N; so_height : N; so_ntokens : N; so_regs_len : N;
  so_dest : option destination;
  so_tokens : list (N * N);
  so_regs : bytes;
  so_shown : bool; so_approved : bool }.
(** Declared counts. *)
Record s_head := mk_sh { sh_inputs : N; sh_data : N; sh_tokens : N; sh_outputs : N }.
Record s_tx := mk_stx {
  sx_head : option s_head;
  sx_tokens : list bytes;
  sx_inputs : list s_input;
  sx_data : list bytes;
  sx_outputs : list s_output }.
Definition s_empty : s_tx := mk_stx None [] [] [] [].

(** Frame layout: box id 32, frame count 1, frame index 1, value 8, token count 1, tokens
    40 each, tag 16, extension length 4 (first frame only).  The length of the token part
    is computed in one byte, so the count byte acts modulo 32. *)
Definition frame_ntokens (data : bytes) : nat := N.to_nat (num 42 1 data mod 32).
Definition frame_tokens (data : bytes) : list (bytes * N) :=
  map (fun e => (slice 0 32 e, num 32 8 e)) (entries 40 (slice 43 (40 * frame_ntokens data) data)).
Definition frame_body (data : bytes) : bytes := slice 0 (43 + 40 * frame_ntokens data) data.
Definition frame_tag (data : bytes) : bytes := slice (43 + 40 * frame_ntokens data) 16 data.

Definition on_outputs (f : list s_output -> list s_output) (d : s_tx) : s_tx :=
  mk_stx (sx_head d) (sx_tokens d) (sx_inputs d) (sx_data d) (f (sx_outputs d)).
Definition on_inputs (f : list s_input -> list s_input) (d : s_tx) : s_tx :=
  mk_stx (sx_head d) (sx_tokens d) (f (sx_inputs d)) (sx_data d) (sx_outputs d).
Definition set_dest (f : option destination -> destination) (o : s_output) : s_output :=
  mk_so (so_value o) (so_tree_len o) (so_height o) (so_ntokens o) (so_regs_len o)
        (Some (f (so_dest o))) (so_tokens o) (so_regs o) (so_shown o) (so_approved o).
Definition add_so_tokens (l : list (N * N)) (o : s_output) : s_output :=
  mk_so (so_value o) (so_tree_len o) (so_height o) (so_ntokens o) (so_regs_len o)
        (so_dest o) (so_tokens o ++ l) (so_regs o) (so_shown o) (so_approved o).
Definition add_so_regs (l : bytes) (o : s_output) : s_output :=
  mk_so (so_value o) (so_tree_len o) (so_height o) (so_ntokens o) (so_regs_len o)
        (so_dest o) (so_tokens o) (so_regs o ++ l) (so_shown o) (so_approved o).
Definition set_shown (o : s_output) : s_output :=
  mk_so (so_value o) (so_tree_len o) (so_height o) (so_ntokens o) (so_regs_len o)
        (so_dest o) (so_tokens o) (so_regs o) true (so_approved o).
Definition set_approved (o : s_output) : s_output :=
  mk_so (so_value o) (so_tree_len o) (so_height o) (so_ntokens o) (so_regs_len o)
        (so_dest o) (so_tokens o) (so_regs o) (so_shown o) (so_shown o).

(** Effect of one accepted command on the description. *)
Definition describe_cmd (d : s_tx) (sub : N) (data : bytes) : s_tx :=
  match sub with
  | 0x10 => mk_stx (Some (mk_sh (num 0 2 data) (num 2 2 data) (num 4 1 data) (num 5 2 data)))
                   (sx_tokens d) (sx_inputs d) (sx_data d) (sx_outputs d)
  | 0x11 => mk_stx (sx_head d) (sx_tokens d ++ entries 32 data) (sx_inputs d) (sx_data d) (sx_outputs d)
  | 0x12 =>
      if num 33 1 data =? 0 then
        on_inputs (fun l => l ++ [mk_si (slice 0 32 data) (num 34 8 data) (num 32 1 data)
                                        [frame_tokens data]
                                        (num (43 + 40 * frame_ntokens data + 16) 4 data) []]) d
      else on_inputs (upd_last (fun i => mk_si (si_id i) (si_value i) (si_count i)
                                               (si_frames i ++ [frame_tokens data])
                                               (si_ext_len i) (si_ext i))) d
  | 0x13 => on_inputs (upd_last (fun i => mk_si (si_id i) (si_value i) (si_count i) (si_frames i)
                                                (si_ext_len i) (si_ext i ++ data))) d
  | 0x14 => mk_stx (sx_head d) (sx_tokens d) (sx_inputs d) (sx_data d ++ entries 32 data) (sx_outputs d)
  | 0x15 => on_outputs (fun l => l ++ [mk_so (num 0 8 data) (num 8 4 data) (num 12 4 data) (num 16 1 data)
                                             (num 17 4 data) None [] [] false false]) d
  | 0x16 => on_outputs (upd_last (set_dest (fun t => match t with
                                                     | None => SD_TREE data
                                                     | Some (SD_TREE t) => SD_TREE (t ++ data)
                                                     | Some x => x
                                                     end))) d
  | 0x17 => on_outputs (upd_last (set_dest (fun _ => SD_FEE))) d
  | 0x18 => on_outputs (upd_last (set_dest (fun _ => SD_CHANGE (path_at 0 data)))) d
  | 0x19 => on_outputs (upd_last (add_so_tokens (map (fun e => (num 0 4 e, num 4 8 e)) (entries 12 data)))) d
  | 0x1A => on_outputs (upd_last (add_so_regs data)) d
  | _ => d
  end.

Definition shows_output (outs : list output) : bool :=
  existsb (fun o => match o with OShow U_STX_OUTPUT _ _ => true | _ => false end) outs.

Definition describe (d : s_tx) (o : obs) : s_tx :=
  match continuation INS_SIGN o with
  | Some (sub, data) =>
      let d := describe_cmd d sub data in
      if shows_output (snd o) then on_outputs (upd_last set_shown) d else d
  | None => if is_approval o then on_outputs (upd_last set_approved) d else d
  end.
(** The transaction described by the part of a history after the start command. *)
Definition description (body : list obs) : s_tx := fold_left describe body s_empty.

(** Start command: network, path (and an optional token). *)
Definition start_network (data : bytes) : N := num 0 1 data.
Definition start_path (data : bytes) : list N := path_at 1 data.

(** ** Ergo serialization *)

(** The public key of a path of this device. *)
Definition public_key (E : env) (p : list N) : bytes :=
  match e_derive E p with
  | Some (sk, _) => match e_mulG E sk with Some w => compressed w | None => [] end
  | None => []
  end.
(** The miners' fee script (reward delay 720). *)
Definition FEE_TREE : bytes :=
  [0x10;0x05;0x04;0x00;0x04;0x00;0x0e;0x36;0x10;0x02;0x04;0xa0;0x0b;0x08;0xcd;0x02;0x79;0xbe;0x66;0x7e;
   0xf9;0xdc;0xbb;0xac;0x55;0xa0;0x62;0x95;0xce;0x87;0x0b;0x07;0x02;0x9b;0xfc;0xdb;0x2d;0xce;0x28;0xd9;
   0x59;0xf2;0x81;0x5b;0x16;0xf8;0x17;0x98;0xea;0x02;0xd1;0x92;0xa3;0x9a;0x8c;0xc7;0xa7;0x01;0x73;0x00;
   0x73;0x01;0x10;0x01;0x02;0x04;0x02;0xd1;0x96;0x83;0x03;0x01;0x93;0xa3;0x8c;0xc7;0xb2;0xa5;0x73;0x00;
   0x00;0x01;0x93;0xc2;0xb2;0xa5;0x73;0x01;0x00;0x74;0x73;0x02;0x73;0x03;0x83;0x01;0x08;0xcd;0xee;0xac;
   0x93;0xb1;0xa5;0x73;0x04].
(** The script of a destination. *)
Definition dest_tree (E : env) (d : destination) : bytes :=
  match d with
  | SD_TREE t => t
  | SD_FEE => FEE_TREE
  | SD_CHANGE p => [0x00; 0x08; 0xcd] ++ public_key E p
  end.

(** An input with an empty proof: box id, proof length 0, context extension (00 if empty). *)
Definition input_bytes (i : s_input) : bytes :=
  si_id i ++ [0] ++ (if si_ext_len i =? 0 then [0] else si_ext i).
Definition token_bytes (t : N * N) : bytes := vlq (fst t) ++ vlq (snd t).
(** An output candidate: value, script, creation height, tokens (by index), registers. *)
Definition output_bytes (E : env) (o : s_output) : bytes :=
  vlq (so_value o) ++
  match so_dest o with Some d => dest_tree E d | None => [] end ++
  vlq (so_height o) ++ [blen (so_tokens o)] ++ concat (map token_bytes (so_tokens o)) ++
  (if so_regs_len o =? 0 then [0] else so_regs o).
(** The bytes an Ergo node verifies signatures against. *)
Definition bytes_to_sign (E : env) (d : s_tx) : bytes :=
  vlq (blen (sx_inputs d)) ++ concat (map input_bytes (sx_inputs d)) ++
  vlq (blen (sx_data d)) ++ concat (sx_data d) ++
  vlq (blen (sx_tokens d)) ++ concat (sx_tokens d) ++
  vlq (blen (sx_outputs d)) ++ concat (map (output_bytes E) (sx_outputs d)).

(** ** Completeness *)

Definition tree_complete (o : s_output) : bool :=
  match so_dest o with
  | None => false
  | Some (SD_TREE t) => blen t =? so_tree_len o
  | Some _ => true
  end.
Definition output_complete (o : s_output) : bool :=
  tree_complete o && (blen (so_tokens o) =? so_ntokens o) && (blen (so_regs o) =? so_regs_len o).
Definition input_complete (i : s_input) : bool :=
  (blen (si_frames i) =? si_count i) && (blen (si_ext i) =? si_ext_len i).
Definition count_complete {A} (f : A -> bool) (l : list A) : N := blen (filter f l).

(** What an output opened and not (yet) completed has contributed so far. *)
Definition output_bytes_so_far (E : env) (o : s_output) : bytes :=
  vlq (so_value o) ++
  match so_dest o with Some d => dest_tree E d | None => [] end ++
  if tree_complete o then
    vlq (so_height o) ++ [so_ntokens o] ++ concat (map token_bytes (so_tokens o)) ++
    (if blen (so_tokens o) =? so_ntokens o then if so_regs_len o =? 0 then [0] else so_regs o else [])
  else [].

(** * Attestation *)

Record s_box := mk_sb {
  sb_tx_id : bytes; sb_index : N;
  sb_value : N; sb_tree_len : N; sb_height : N; sb_ntokens : N; sb_regs_len : N;
  sb_tree : option bytes;
  sb_tokens : list (bytes * N);
  sb_regs : bytes }.
Definition sb_start (data : bytes) : s_box :=
  mk_sb (slice 0 32 data) (num 32 2 data) (num 34 8 data) (num 42 4 data) (num 46 4 data)
        (num 50 1 data) (num 51 4 data) None [] [].
Definition sb_cmd (b : s_box) (sub : N) (data : bytes) : s_box :=
  let upd t k r := mk_sb (sb_tx_id b) (sb_index b) (sb_value b) (sb_tree_len b) (sb_height b)
                         (sb_ntokens b) (sb_regs_len b) t k r in
  match sub with
  | 0x02 => upd (Some (match sb_tree b with None => data | Some t => t ++ data end)) (sb_tokens b) (sb_regs b)
  | 0x03 => upd (sb_tree b)
                (sb_tokens b ++ map (fun e => (slice 0 32 e, num 32 8 e)) (entries 40 data)) (sb_regs b)
  | 0x04 => upd (sb_tree b) (sb_tokens b) (sb_regs b ++ data)
  | _ => b
  end.
Definition sb_step (b : s_box) (o : obs) : s_box :=
  match continuation INS_ATTEST o with Some (sub, data) => sb_cmd b sub data | None => b end.
Definition start_data (o : obs) : bytes := match fst o with Apdu _ _ _ _ data _ => data | _ => [] end.
(** The box streamed in an attestation session. *)
Definition streamed_box (start : obs) (body : list obs) : s_box :=
  fold_left sb_step body (sb_start (start_data start)).

Definition sb_complete (b : s_box) : bool :=
  match sb_tree b with Some t => blen t =? sb_tree_len b | None => false end &&
  (blen (sb_tokens b) =? sb_ntokens b) && (blen (sb_regs b) =? sb_regs_len b).
(** Ergo serialization of a box with its transaction id and index; its hash is the id. *)
Definition box_bytes (b : s_box) : bytes :=
  vlq (sb_value b) ++ match sb_tree b with Some t => t | None => [] end ++ vlq (sb_height b) ++
  [blen (sb_tokens b)] ++ concat (map (fun t => fst t ++ vlq (snd t)) (sb_tokens b)) ++
  (if sb_regs_len b =? 0 then [0] else sb_regs b) ++ sb_tx_id b ++ vlq (sb_index b).
Definition box_id (E : env) (b : s_box) : bytes := e_blake E (box_bytes b).
(** Number of frames of a box, and frame [i] without its tag. *)
Definition frame_total (b : s_box) : N := N.max 1 ((blen (sb_tokens b) + 3) / 4).
Definition frame_of (E : env) (b : s_box) (i : N) : bytes :=
  let toks := firstn 4 (skipn (4 * N.to_nat i) (sb_tokens b)) in
  box_id E b ++ [frame_total b] ++ [i] ++ be_bytes 8 (sb_value b) ++ [blen toks] ++
  concat (map (fun t => fst t ++ be_bytes 8 (snd t)) toks).
Definition tagged (E : env) (key body : bytes) : bytes := body ++ firstn 16 (e_hmac E key body).
