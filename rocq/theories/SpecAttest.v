(** When the device accepts a command of an open attestation session: conditions on the
    box described so far and on the data of the command, from doc/INS-20-ATTEST-BOX.md,
    with the limits of the device. *)
From Verif Require Import Base Env UiFlow App SpecTree SpecTrace SpecTx SpecApdu SpecScreen SpecRequest SpecSign SpecRules SpecAccept.

(** An attestation session that is open. *)
Definition attesting (sid : N) (tr : list obs) (start : obs) (body : list obs) : Prop :=
  open_session INS_ATTEST sid tr start body /\ Forall (fun o => ~ malformed_start o) body.

(** The part of the script received so far; all of it came. *)
Definition box_script (b : s_box) : bytes := match sb_tree b with Some t => t | None => [] end.
Definition script_done (b : s_box) : Prop := exists t, sb_tree b = Some t /\ blen t = sb_tree_len b.

(** 0x02, script chunk: only the last one may have less than 255 bytes. *)
Definition box_chunk_ok (b : s_box) (data : bytes) : Prop :=
  ~ script_done b /\ blen (box_script b ++ data) <= sb_tree_len b /\
  (blen (box_script b ++ data) = sb_tree_len b \/ length data = 255%nat).
(** 0x03, tokens; [b'] is the box with them. *)
Definition box_tokens_ok (b : s_box) (data : bytes) (b' : s_box) : Prop :=
  script_done b /\ blen (sb_tokens b) < sb_ntokens b /\ entries_of 40 data /\
  blen (sb_tokens b') <= sb_ntokens b /\ NoDup (map fst (sb_tokens b')).
(** 0x04, registers. *)
Definition box_registers_ok (b : s_box) (data : bytes) : Prop :=
  script_done b /\ blen (sb_tokens b) = sb_ntokens b /\
  blen (sb_regs b) < sb_regs_len b /\ blen (sb_regs b ++ data) <= sb_regs_len b.
(** 0x05, frame request. *)
Definition box_frame_ok (b : s_box) (data : bytes) : Prop :=
  sb_complete b = true /\ exists i, data = [i] /\ i < frame_total b.

(** The command [sub] with these data may follow when [b] was described. *)
Definition admissible_box (b : s_box) (sub : N) (data : bytes) : Prop :=
  match sub with
  | 0x02 => box_chunk_ok b data
  | 0x03 => box_tokens_ok b data (sb_cmd b sub data)
  | 0x04 => box_registers_ok b data
  | 0x05 => box_frame_ok b data
  | _ => False
  end.
