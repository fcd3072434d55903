(** A wallet that gets a transaction signed, seeing nothing but packets, and a user who does
    not refuse (doc/INS-20-ATTEST-BOX.md, doc/INS-21-SIGN-TRANSACTION.md). *)
From Verif Require Import Base Env App SpecText SpecTree SpecTrace SpecTx SpecAmounts SpecApdu SpecScreen SpecSign SpecRules SpecStart Wire Buttons Whole SpecWhole SpecHost.

(** What the wallet is about: a transaction, and parameter P2 and data of the first signing
    command (network, path, perhaps an application token). *)
Record plan := mk_plan { pl_tx : w_tx; pl_p2 : N; pl_start : bytes }.
Definition speak (ins p1 p2 : N) (data : bytes) : bytes := CLA :: ins :: p1 :: p2 :: blen data :: data.
Definition opening (p : plan) : bytes := speak INS_SIGN 1 (pl_p2 p) (pl_start p).

(** The commands of the transaction, the frames of its inputs being those received. *)
Definition sent_input (x : w_box * bytes) (frames : list bytes) : list command :=
  map (fun y => (0x12, fst y ++ (if snd y =? 0 then be_bytes 4 (blen (snd x)) else []))) (combine frames (frame_numbers (fst x))) ++
  packets 0x13 255 (snd x).
Definition wallet_commands (w : w_tx) (got : list (list bytes)) : list command :=
  [(0x10, be_bytes 2 (blen (w_inputs w)) ++ be_bytes 2 (blen (w_data w)) ++ be_bytes 1 (blen (w_tokens w)) ++ be_bytes 2 (blen (w_outputs w)))] ++
  packets 0x11 224 (concat (w_tokens w)) ++
  concat (map (fun y => sent_input (fst y) (snd y)) (combine (w_inputs w) got)) ++
  packets 0x14 224 (concat (w_data w)) ++
  concat (map output_commands (w_outputs w)).

(** What the wallet knows: the frames of the inputs attested so far; the inputs still to do;
    in a session, its id, the frames received in it and the commands still to send. *)
Inductive wallet :=
| WA_OPEN (got : list (list bytes)) (todo : list (w_box * bytes))
| WA_ATTEST (got : list (list bytes)) (todo : list (w_box * bytes)) (sid : N) (frames : list bytes) (cmds : list command)
| WA_SIGN (sid : N) (cmds : list command)
| WA_SIGNED (sig : bytes)
| WA_FAILED (answer : bytes).
Definition at_first (p : plan) : wallet := WA_OPEN [] (w_inputs (pl_tx p)).
(** The packet it sends next, and what it makes of an answer. *)
Definition next_packet (p : plan) (s : wallet) : option bytes :=
  match s with
  | WA_OPEN _ (x :: _) => Some (speak INS_ATTEST 1 1 (box_header (fst x)))
  | WA_OPEN _ [] => Some (opening p)
  | WA_ATTEST _ _ sid _ (c :: _) => Some (speak INS_ATTEST (fst c) sid (snd c))
  | WA_SIGN sid (c :: _) => Some (speak INS_SIGN (fst c) sid (snd c))
  | _ => None
  end.
Definition hears (p : plan) (s : wallet) (answer : bytes) : wallet :=
  let data := firstn (length answer - 2) answer in
  if bytes_eqb (skipn (length answer - 2) answer) [0x90; 0] then
    match s with
    | WA_OPEN got (x :: todo) =>
        WA_ATTEST got (x :: todo) (hd 0 data) [] (box_commands (fst x) ++ map (fun i => (0x05, [i])) (frame_numbers (fst x)))
    | WA_OPEN got [] => WA_SIGN (hd 0 data) (wallet_commands (pl_tx p) got ++ [(0x20, [])])
    | WA_ATTEST got todo sid frames (c :: cmds) =>
        let frames := if fst c =? 0x05 then frames ++ [data] else frames in
        match cmds with [] => WA_OPEN (got ++ [frames]) (tl todo) | _ => WA_ATTEST got todo sid frames cmds end
    | WA_SIGN sid [_] => WA_SIGNED data
    | WA_SIGN sid (_ :: cmds) => WA_SIGN sid cmds
    | s => s
    end
  else WA_FAILED answer.

(** The random source was good enough for the first command of a session, and the path of
    the signing command is one the device signs with. *)
Definition lucky (E : env) (p : plan) (s : wallet) (r : rnd) : Prop :=
  match s with
  | WA_OPEN _ (_ :: _) => id_drawn r
  | WA_OPEN _ [] => sign_request_ok E (pl_p2 p) (pl_start p) r
  | _ => True
  end.
(** The conversation after [tr0]: the wallet sends a packet when no answer is due ([false]);
    the user presses what they like, but no press refuses: one that is answered is both buttons,
    and Reject was not displayed. *)
Definition listened (p : plan) (s : wallet) (due : bool) (sent : list bytes) : wallet * bool :=
  match sent with [] => (s, due) | _ => (fold_left (hears p) sent s, false) end.
Inductive talks (E : env) (p : plan) (tr0 : list moment) : list moment -> wallet -> bool -> Prop :=
| talks_start : talks E p tr0 [] (at_first p) false
| talks_send : forall tr s packet r sent shown s' due, talks E p tr0 tr s false ->
    next_packet p s = Some packet -> lucky E p s r -> listened p s true sent = (s', due) ->
    talks E p tr0 (tr ++ [mk_moment (Arrives packet r) sent shown]) s' due
| talks_press : forall tr s due b sent shown s' due', talks E p tr0 tr s due ->
    (sent <> [] -> b = BOTH /\ ~ shown_last (tr0 ++ tr) (Some (C_REJECT, O))) -> listened p s due sent = (s', due') ->
    talks E p tr0 (tr ++ [mk_moment (Presses b) sent shown]) s' due'.
(** The same conversation with a user who presses what they like, except both buttons while
    Reject is displayed. *)
Inductive chats (E : env) (p : plan) (tr0 : list moment) : list moment -> wallet -> bool -> Prop :=
| chats_start : chats E p tr0 [] (at_first p) false
| chats_send : forall tr s packet r sent shown s' due, chats E p tr0 tr s false ->
    next_packet p s = Some packet -> lucky E p s r -> listened p s true sent = (s', due) ->
    chats E p tr0 (tr ++ [mk_moment (Arrives packet r) sent shown]) s' due
| chats_press : forall tr s due b sent shown s' due', chats E p tr0 tr s due ->
    ~ (b = BOTH /\ shown_last (tr0 ++ tr) (Some (C_REJECT, O))) -> listened p s due sent = (s', due') ->
    chats E p tr0 (tr ++ [mk_moment (Presses b) sent shown]) s' due'.
(** The pages of every question can be computed: the paths of change outputs fit a screen
    (C69), and no token is minted to exactly 2^63 (C53). *)
Definition displayable (E : env) (w : w_tx) : Prop :=
  Forall (fun o => match wo_dest o with SD_CHANGE path => forall t, is_path_text path t -> (length t < 70)%nat | _ => True end) (w_outputs w) /\
  forall id, balance (wanted E w) id <> (- 2 ^ 63)%Z.
(** Every command so far was answered. *)
Definition all_answered (tr : list moment) : Prop :=
  length (filter (fun m => match mo_act m with Arrives _ _ => true | Presses _ => false end) tr) = length (concat (map mo_sent tr)).

(** The signature asked for: of this very transaction, with the key of the path given, and a
    nonce drawn when the first signing command came; and the case in which there is none. *)
Definition drawn_at_opening (p : plan) (tr : list moment) (nonce : bytes) : Prop :=
  exists m r, In m tr /\ mo_act m = Arrives (opening p) r /\ In nonce (r_nonces r).
Definition signed_as_planned (E : env) (p : plan) (tr : list moment) (sig : bytes) : Prop :=
  exists secret chain nonce, e_derive E (start_path (pl_start p)) = Some (secret, chain) /\ drawn_at_opening p tr nonce /\
    schnorr E secret nonce (bytes_to_sign E (wanted E (pl_tx p))) sig.
Definition no_challenge (E : env) (p : plan) (tr : list moment) : Prop :=
  exists secret chain nonce pk c, e_derive E (start_path (pl_start p)) = Some (secret, chain) /\ drawn_at_opening p tr nonce /\
    e_mulG E secret = Some pk /\ e_mulG E nonce = Some c /\
    be_value (challenge E (compressed pk) (compressed c) (bytes_to_sign E (wanted E (pl_tx p)))) = 0.
(** What the wallet may end with. *)
Definition good_end (E : env) (p : plan) (tr : list moment) (s : wallet) : Prop :=
  (exists sig, s = WA_SIGNED sig /\ signed_as_planned E p tr sig) \/
  s = WA_FAILED [0xE0; 0x17] /\ no_challenge E p tr.
