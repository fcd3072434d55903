(** The command set of the device, as documented in doc/ (INS-01 .. INS-21): which
    instructions exist, which P1/P2 they take, where the application token is. *)
From Verif Require Import Base App SpecTx SpecTrace.

Definition CLA : N := 0xE0.
Definition INS_VERSION : N := 0x01.
Definition INS_NAME : N := 0x02.
Definition INS_KEY : N := 0x10.
Definition INS_ADDRESS : N := 0x11.

Definition known_ins (ins : N) : bool :=
  existsb (N.eqb ins) [INS_VERSION; INS_NAME; INS_KEY; INS_ADDRESS; INS_ATTEST; INS_SIGN].
Definition one_or_two (p : N) : bool := (p =? 1) || (p =? 2).
(** P1/P2 allowed before any state is looked at. *)
Definition params_ok (ins p1 p2 : N) : bool :=
  if (ins =? INS_VERSION) || (ins =? INS_NAME) then (p1 =? 0) && (p2 =? 0)
  else if ins =? INS_KEY then one_or_two p1 && (p2 =? 0)
  else if ins =? INS_ADDRESS then one_or_two p1 && one_or_two p2
  else negb (p1 =? 0) && negb (p2 =? 0).
(** Instructions that need an idle device. *)
Definition interactive (ins : N) : bool :=
  existsb (N.eqb ins) [INS_KEY; INS_ADDRESS; INS_ATTEST; INS_SIGN].

(** A request that carries an application token (its last four bytes), else 0. *)
Definition has_token (ins p1 p2 : N) : bool :=
  if ins =? INS_KEY then p1 =? 2 else p2 =? 2.
Definition request_token (ins p1 p2 : N) (data : bytes) : N :=
  if has_token ins p1 p2 then num (length data - 4) 4 data else 0.

(** Errors of a command that was looked into, as opposed to the refusals before that. *)
Definition handler_error (s : sw) : bool :=
  match s with
  | SW_OK | SW_DENY | SW_WRONG_P1P2 | SW_WRONG_APDU_DATA_LENGTH | SW_INS_NOT_SUPPORTED | SW_CLA_NOT_SUPPORTED | SW_BUSY => false
  | _ => true
  end.

(** What may happen while session [sid] of [ins] stays open: its own accepted commands,
    the version and name queries, refusals before the command is looked into, and
    screens answered with success. *)
Definition keeps (ins sid : N) (o : obs) : Prop :=
  match o with
  | (Apdu cla i p1 p2 data r, outs) =>
      (continuation ins o = Some (p1, data) /\ p2 = sid) \/
      ((i = INS_VERSION \/ i = INS_NAME) /\ exists b, outs = [OResp b SW_OK]) \/
      (exists s, outs = [OResp [] s] /\ In s [SW_CLA_NOT_SUPPORTED; SW_INS_NOT_SUPPORTED; SW_WRONG_P1P2; SW_BUSY])
  | (BadApdu, outs) => outs = [OResp [] SW_WRONG_APDU_DATA_LENGTH]
  | (_, outs) => forall b s, In (OResp b s) outs -> s = SW_OK
  end.
