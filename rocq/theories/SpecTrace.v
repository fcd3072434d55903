(** Histories of the device: what happened (an APDU from the host, an action of the user)
    and what the device put out, from power-on.  Everything the property statements say
    about "the session", "accepted commands" and "approvals" is read off this list. *)
From Verif Require Import Base Env App.

(** One event and the outputs of the device. *)
Definition obs := (event * list output)%type.

(** What the transport guarantees: one-byte header fields, at most 255 bytes of data; the
    random source delivers 32-byte nonces and one-byte session ids. *)
Definition event_ok (e : event) : Prop :=
  match e with
  | Apdu cla ins p1 p2 data r =>
      cla < 256 /\ ins < 256 /\ p1 < 256 /\ p2 < 256 /\
      bytes_ok data = true /\ (length data <= 255)%nat /\
      Forall (fun k => length k = 32%nat /\ bytes_ok k = true) (r_nonces r) /\
      Forall (fun i => i < 256) (r_ids r)
  | _ => True
  end.

(** [history E key tr st]: the device, started with session key [key], went through [tr]
    and is now in state [st].  Histories in which the device hangs drawing session ids
    (an all-zero random source) end there. *)
Inductive history (E : env) (key : bytes) : list obs -> state -> Prop :=
| history_start : history E key [] (init key)
| history_step : forall tr st e outs st',
    history E key tr st -> event_ok e -> step E st e = (st', outs) -> ~ In ODiverge outs ->
    history E key (tr ++ [(e, outs)]) st'.

(** A command was accepted: answered with success, or with a screen for the user. *)
Definition success (o : output) : bool :=
  match o with OResp _ SW_OK => true | OShow _ _ _ => true | _ => false end.
Definition accepted (outs : list output) : bool := existsb success outs.

Definition INS_ATTEST : N := 0x20.
Definition INS_SIGN : N := 0x21.

(** An accepted start command (P1 = 1) of attestation or signing. *)
Definition is_start (ins : N) (o : obs) : bool :=
  match o with
  | (Apdu cla i p1 _ _ _, outs) => (cla =? 0xE0) && (i =? ins) && (p1 =? 1) && accepted outs
  | _ => false
  end.
(** An accepted continuation command: subcommand and data. *)
Definition continuation (ins : N) (o : obs) : option (N * bytes) :=
  match o with
  | (Apdu cla i p1 _ data _, outs) =>
      if (cla =? 0xE0) && (i =? ins) && negb (p1 =? 1) && accepted outs then Some (p1, data) else None
  | _ => None
  end.
(** The user approved what was on the screen, and the device answered with success. *)
Definition is_approval (o : obs) : bool :=
  match o with
  | (UiApprove, outs) | (UiPathBoth, outs) => accepted outs
  | _ => false
  end.
(** The last accepted start and everything after it. *)
Definition session_of (ins : N) (tr : list obs) : option (obs * list obs) :=
  fold_left (fun s o => if is_start ins o then Some (o, [])
                        else match s with Some (b, l) => Some (b, l ++ [o]) | None => None end)
            tr None.

(** The user approved the start of the session: the device answered with its id, and no
    continuation was accepted and nothing else approved before. *)
Definition approved_in (ins sid : N) (body : list obs) : Prop :=
  exists b1 e b2, body = b1 ++ (e, [OResp [sid] SW_OK]) :: b2 /\ (e = UiApprove \/ e = UiPathBoth) /\
    Forall (fun o => continuation ins o = None /\ is_approval o = false) b1.

(** The data of the accepted continuation commands with a given subcommand. *)
Definition pieces (ins sub : N) (body : list obs) : list bytes :=
  flat_map (fun o => match continuation ins o with
                     | Some (s, data) => if s =? sub then [data] else []
                     | None => []
                     end) body.
