(** What the session key, the session ids and the random numbers decide. *)
From Verif Require Import Base Env UiFlow App SpecTrace SpecTx SpecApdu SpecStart SpecSeed.

(** ** The session key *)

(** The device [E] with another way of computing tags. *)
Definition with_tags (E : env) (hmac : bytes -> bytes -> bytes) : env :=
  mk_env (e_blake E) hmac (e_derive E) (e_mulG E) (e_id_keep E).
(** The part of a presented frame that the tag is for: everything before the tag, its length
    computed in one byte from the stated number of tokens. *)
Definition tagged_part (data : bytes) : bytes := firstn (N.to_nat ((num 42 1 data * 40 + 43) mod 256)) data.
(** [m] is the content of a frame the device gave out, or of one that was presented to it. *)
Inductive frame_content : obs -> bytes -> Prop :=
| content_attested : forall p2 data r m tag, length tag = 16%nat ->
    frame_content (Apdu CLA INS_ATTEST 5 p2 data r, [OResp (m ++ tag) SW_OK]) m
| content_presented : forall p2 data r outs, frame_content (Apdu CLA INS_SIGN 0x12 p2 data r, outs) (tagged_part data).

(** ** Session ids *)

(** A command within a session: its second parameter is the session id. *)
Definition in_session (ins p1 : N) : bool := ((ins =? INS_ATTEST) || (ins =? INS_SIGN)) && negb (p1 =? 1).
(** The same event with all session ids renamed: those the random source offers, and those
    the host sends. *)
Definition rename_event (f : N -> N) (e : event) : event :=
  match e with
  | Apdu cla ins p1 p2 data r =>
      Apdu cla ins p1 (if in_session ins p1 then f p2 else p2) data (mk_rnd (r_nonces r) (map f (r_ids r)))
  | e => e
  end.
(** The events whose answer may be a session id: an approval, and the start of an
    attestation for a known application. *)
Definition may_give_id (e : event) : bool :=
  match e with
  | UiApprove | UiPathBoth => true
  | Apdu _ ins p1 _ _ _ => (ins =? INS_ATTEST) && (p1 =? 1)
  | _ => false
  end.
Definition rename_output (f : N -> N) (e : event) (o : output) : output :=
  match o with
  | OResp [i] SW_OK => if may_give_id e then OResp [f i] SW_OK else o
  | _ => o
  end.
Definition rename (f : N -> N) (o : obs) : obs := (rename_event f (fst o), map (rename_output f (fst o)) (snd o)).
(** A renaming of the 255 possible ids. *)
Definition renaming (f : N -> N) : Prop :=
  f 0 = 0 /\ (forall i j, f i = f j -> i = j) /\ forall i, i < 256 -> f i < 256.

(** ** Random numbers *)

(** The session id drawn: the first that is not zero. *)
Definition drawn_id (r : rnd) : option N := find (fun i => negb (i =? 0)) (r_ids r).
(** The same event, with other random numbers; at the start of a session the id drawn is
    the same, and at the start of a signing session both or neither yield a usable nonce. *)
Definition other_chance (E : env) (e e' : event) : Prop :=
  match e, e' with
  | Apdu cla ins p1 p2 data r, Apdu cla' ins' p1' p2' data' r' =>
      cla' = cla /\ ins' = ins /\ p1' = p1 /\ p2' = p2 /\ data' = data /\
      (ins = INS_ATTEST \/ ins = INS_SIGN -> p1 = 1 -> drawn_id r' = drawn_id r) /\
      (ins = INS_SIGN -> p1 = 1 -> (nonce_drawn E r' <-> nonce_drawn E r))
  | _, _ => e' = e
  end.
(** The same outputs, except that an approval may have been answered by another
    signature. *)
Definition same_but_signature (o o' : obs) : Prop :=
  snd o' = snd o \/
  fst o = UiApprove /\ exists s s', snd o = [s] /\ snd o' = [s'] /\ signing_answer s /\ signing_answer s'.
