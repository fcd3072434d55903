(** Sessions, signatures and the bytes under them, from doc/INS-20, doc/INS-21 and the Ergo
    signature scheme; read off histories. *)
From Verif Require Import Base Env UiFlow App SpecVlq SpecTree SpecTrace SpecTx SpecApdu SpecScreen.

(** ** Sessions *)

(** The device returned [sid] as the id of the session: at once in the answer to the start
    command (attestation for a known application), or when the user approved it. *)
Definition session_id (ins sid : N) (start : obs) (body : list obs) : Prop :=
  ins = INS_ATTEST /\ snd start = [OResp [sid] SW_OK] \/ approved_in ins sid body.
(** Session [sid] of [ins] is open: nothing since its start has ended it. *)
Definition open_session (ins sid : N) (tr : list obs) (start : obs) (body : list obs) : Prop :=
  session_of ins tr = Some (start, body) /\ Forall (keeps ins sid) body /\ session_id ins sid start body.

(** A refusal before the command is looked into. *)
Definition early_refusal (outs : list output) : Prop :=
  exists s, outs = [OResp [] s] /\ In s [SW_CLA_NOT_SUPPORTED; SW_INS_NOT_SUPPORTED; SW_WRONG_P1P2; SW_BUSY].
(** What must end a session of [ins]: a command of another kind, or one of its own that
    fails, once looked into; an action of the user answered with other than success. *)
Definition ends (ins : N) (o : obs) : Prop :=
  match o with
  | (Apdu cla i _ _ _ _, outs) =>
      cla = CLA /\ interactive i = true /\ ~ early_refusal outs /\ (i <> ins \/ accepted outs = false)
  | (e, outs) => by_user e = true /\ exists b s, In (OResp b s) outs /\ s <> SW_OK
  end.

(** No command is in progress and nothing of one is left. *)
Definition cleared (st : state) : Prop := st_cmd st = CMD_NONE /\ st_ctx st = X_NONE.

(** An answer that carries a session id. *)
Definition gives_session_id (tr : list obs) (o : obs) (sid : N) : Prop :=
  snd o = [OResp [sid] SW_OK] /\
  (is_start INS_ATTEST o = true \/
   (fst o = UiApprove \/ fst o = UiPathBoth) /\
   exists q k f pages, on_screen tr = Some (q, k, f, pages) /\ (k = U_ATTEST \/ k = U_STX_APPROVE)).
Definition drawn_ids (o : obs) : list N := match fst o with Apdu _ _ _ _ _ r => r_ids r | _ => [] end.

(** ** Signatures *)

(** The only answers of 56 bytes are signatures. *)
Definition signature (o : obs) : option bytes :=
  match snd o with
  | [OResp b SW_OK] => if blen b =? 56 then Some b else None
  | _ => None
  end.

(** The order of secp256k1. *)
Definition GROUP_ORDER : N := 2 ^ 256 - 432420386565659656852420866394968145599.
(** The tree of the sigma protocol hashed in front of the message: one leaf, proving
    knowledge of the logarithm of [pk], with commitment [w]. *)
Definition commitment (pk w : bytes) : bytes :=
  [0x01; 0x00; 0x27; 0x10; 0x01; 0x08; 0xcd] ++ pk ++ [0x73; 0x00; 0x00; 0x21] ++ w.
Definition challenge (E : env) (pk w msg : bytes) : bytes := firstn 24 (e_blake E (commitment pk w ++ msg)).
(** [sig] is the Schnorr signature of [msg] with this secret and this nonce. *)
Definition schnorr (E : env) (secret nonce msg sig : bytes) : Prop :=
  exists pk w, e_mulG E secret = Some pk /\ e_mulG E nonce = Some w /\
    let c := challenge E (compressed pk) (compressed w) msg in
    sig = c ++ be_bytes 32 ((be_value nonce + be_value c * be_value secret) mod GROUP_ORDER).
(** The key and the random nonces of a session. *)
Definition session_secret (E : env) (start : obs) (secret : bytes) : Prop :=
  exists chain, e_derive E (start_path (start_data start)) = Some (secret, chain).
Definition session_nonces (start : obs) : list bytes := match fst start with Apdu _ _ _ _ _ r => r_nonces r | _ => [] end.
(** [msg] is what was signed by the signature [sig] in the session started by [start]. *)
Definition signed_message (E : env) (start : obs) (msg sig : bytes) : Prop :=
  exists secret nonce, session_secret E start secret /\ In nonce (session_nonces start) /\ schnorr E secret nonce msg sig.

(** The curve as an abstract group of order [GROUP_ORDER], and the device's multiplication
    as multiplication in it; [enc] encodes points and has no encoding for the neutral
    element if [enc zero = None]. *)
Record curve (E : env) {G : Type} (zero gen : G) (add : G -> G -> G) (opp : G -> G) (enc : G -> option bytes) : Prop := mk_curve {
  cv_assoc : forall x y z, add x (add y z) = add (add x y) z;
  cv_comm : forall x y, add x y = add y x;
  cv_zero : forall x, add zero x = x;
  cv_opp : forall x, add x (opp x) = zero;
  cv_order : N.iter GROUP_ORDER (add gen) zero = zero;
  cv_mul : forall k, e_mulG E k = enc (N.iter (be_value k) (add gen) zero) }.
(** What a verifier computes from the message, the public key point [P] and the signature:
    the commitment z*gen - c*P, hashed again. *)
Definition verifies (E : env) {G : Type} (zero gen : G) (add : G -> G -> G) (opp : G -> G) (enc : G -> option bytes)
  (P : G) (msg sig : bytes) : Prop :=
  let mul k x := N.iter k (add x) zero in
  let c := firstn 24 sig in
  let z := be_value (skipn 24 sig) in
  let W := add (mul z gen) (opp (mul (be_value c) P)) in
  exists pk w, enc P = Some pk /\ enc W = Some w /\ challenge E (compressed pk) (compressed w) msg = c.

(** ** The bytes fed to the hash *)

(** The bytes of the described transaction if some outputs were opened and then abandoned:
    these contribute what they had so far, and are not counted. *)
Definition streamed_bytes (E : env) (d : s_tx) : bytes :=
  vlq (blen (sx_inputs d)) ++ concat (map input_bytes (sx_inputs d)) ++
  vlq (blen (sx_data d)) ++ concat (sx_data d) ++
  vlq (blen (sx_tokens d)) ++ concat (sx_tokens d) ++
  vlq (count_complete output_complete (sx_outputs d)) ++ concat (map (output_bytes_so_far E) (sx_outputs d)).
(** The counts given in the header command are those of what was streamed. *)
Definition counts_met (d : s_tx) : Prop :=
  exists h, sx_head d = Some h /\
    Forall (fun i => input_complete i = true) (sx_inputs d) /\ blen (sx_inputs d) = sh_inputs h /\
    blen (sx_data d) = sh_data h /\ blen (sx_tokens d) = sh_tokens h /\
    count_complete output_complete (sx_outputs d) = sh_outputs h.
