(** C39-C41, C51, C54: exports, the application token, networks, data lengths. *)
From Coq Require Import String.
From Verif Require Import Lib Env UiFlow P2pkOp App SpecText SpecTree SpecTrace SpecTx SpecApdu SpecScreen SpecPages SpecDispatch SpecRequest Toy RequestProofs.

(** C39.  A response of 65 bytes is an extended public key and one of 38 bytes an address
    (C43: no other answer has these sizes).  It is the answer to an approval of the
    screen of such a request, or to a request with the token approved last. *)
Theorem C39_key : forall E key tr st e outs b, env_ok E -> history E key (tr ++ [(e, outs)]) st ->
  In (OResp b SW_OK) outs -> length b = 65%nat ->
  (exists p1 data r f, e = UiApprove /\ on_screen tr = Some (Apdu CLA INS_KEY p1 0 data r, U_EPK, f, [])) \/
  (exists data r, e = Apdu CLA INS_KEY 2 0 data r /\ known_token tr e).
Proof. exact key_consent. Qed.
Print Assumptions C39_key.
Theorem C39_address : forall E key tr st e outs b, env_ok E -> history E key (tr ++ [(e, outs)]) st ->
  In (OResp b SW_OK) outs -> length b = 38%nat ->
  (exists p2 data r f, e = UiApprove /\ on_screen tr = Some (Apdu CLA INS_ADDRESS 1 p2 data r, U_DA, f, [])) \/
  (exists data r, e = Apdu CLA INS_ADDRESS 1 2 data r /\ known_token tr e).
Proof. exact address_consent. Qed.
Print Assumptions C39_address.

(** A key asked for and approved with a token, then an address and the key again, answered
    at once; then an address without token, asked for. *)
Definition TOKEN : bytes := [0x11; 0x22; 0x33; 0x44].
Definition KEY_ASK : event := cmd_of INS_KEY 2 0 (path_bytes ACCOUNT0 ++ TOKEN).
Definition ADDRESS_NOW : event := cmd_of INS_ADDRESS 1 2 (0 :: path_bytes ADDRESS0 ++ TOKEN).
Definition ADDRESS_ASK : event := cmd_of INS_ADDRESS 1 1 (0x10 :: path_bytes ADDRESS0).
Definition ADDRESS_SHOW : event := cmd_of INS_ADDRESS 2 2 (0 :: path_bytes ADDRESS0 ++ TOKEN).
Definition EXPORTS : list event := [KEY_ASK; UiApprove; ADDRESS_NOW; KEY_ASK; ADDRESS_SHOW; UiApprove; ADDRESS_ASK; UiApprove].
Example C39_ex : playable EXPORTS = true /\
  map (fun o => map (fun x => match x with OResp b s => (true, length b) | _ => (false, 0%nat) end) (snd o)) (trace EXPORTS) =
  [[(false, 0)]; [(true, 65)]; [(true, 38)]; [(true, 65)]; [(false, 0)]; [(true, 0)]; [(false, 0)]; [(true, 38)]]%nat.
Proof. split; vm_compute; reflexivity. Qed.

(** C40.  The exported key is the public key and chain code of the path of the request
    behind it; while it is asked for, the screen shows that path in full and the token. *)
Theorem C40_key : forall E key tr st e outs b, env_ok E -> history E key (tr ++ [(e, outs)]) st ->
  In (OResp b SW_OK) outs -> length b = 65%nat ->
  exists p1 data r, behind tr e U_EPK (Apdu CLA INS_KEY p1 0 data r) /\ is_account_path (key_path data) /\ exported_key E (key_path data) b.
Proof. exact key_exact. Qed.
Print Assumptions C40_key.
Theorem C40_key_screen : forall E key tr st e f pages, env_ok E -> history E key tr st -> on_screen tr = Some (e, U_EPK, f, pages) ->
  exists p1 data r t, e = Apdu CLA INS_KEY p1 0 data r /\ is_account_path (key_path data) /\ is_path_text (key_path data) t /\ pages = [] /\
    f = [SC_INFO (str "Ext PubKey Export"); SC_PATH (str "Path") t false] ++ token_screen (token_of e) ++ question_end.
Proof. exact key_screen. Qed.
Print Assumptions C40_key_screen.
(** The address likewise; the path may be cut to 59 characters on the screen, and a
    request only to display also shows the whole address. *)
Theorem C40_address : forall E key tr st e outs b, env_ok E -> history E key (tr ++ [(e, outs)]) st ->
  In (OResp b SW_OK) outs -> length b = 38%nat ->
  exists p2 data r, behind tr e U_DA (Apdu CLA INS_ADDRESS 1 p2 data r) /\ is_address_path (address_path data) /\
    address_network data <= 252 /\ address_at E (address_network data) (address_path data) b.
Proof. exact address_exact. Qed.
Print Assumptions C40_address.
Theorem C40_address_screen : forall E key tr st e f pages, env_ok E -> history E key tr st -> on_screen tr = Some (e, U_DA, f, pages) ->
  exists p1 p2 data r t addr a, e = Apdu CLA INS_ADDRESS p1 p2 data r /\ (p1 = 1 \/ p1 = 2) /\
    is_address_path (address_path data) /\ path_shown 60 (address_path data) t /\
    address_network data <= 252 /\ address_at E (address_network data) (address_path data) addr /\ is_base58 addr a /\ pages = [] /\
    f = [SC_INFO (str (if p1 =? 1 then "Confirm Send Address" else "Confirm Address")); SC_PATH (str "Path") t false] ++
        (if p1 =? 1 then [] else [SC_TEXT (str "Address") a]) ++ token_screen (token_of e) ++ question_end.
Proof. exact address_screen. Qed.
Print Assumptions C40_address_screen.
Example C40_ex : map (fun o => map (fun x => match x with OShow _ f _ => f | _ => [] end) (snd o)) (firstn 1 (trace EXPORTS)) =
    [[[SC_INFO (str "Ext PubKey Export"); SC_PATH (str "Path") (str "44'/429'/0'") false; SC_TEXT (str "Application") (str "0x11223344")] ++ question_end]] /\
  map (fun o => map (fun x => match x with OShow _ f _ => f | _ => [] end) (snd o)) (skipn 6 (firstn 7 (trace EXPORTS))) =
    [[[SC_INFO (str "Confirm Send Address"); SC_PATH (str "Path") (str "44'/429'/0'/0/0") false] ++ question_end]].
Proof. split; vm_compute; reflexivity. Qed.

(** C41.  The token the device compares with is that of the last export, attestation or
    signing request the user approved. *)
Theorem C41_token : forall E key tr st, env_ok E -> history E key tr st -> st_connected st = remembered tr.
Proof. exact token_remembered. Qed.
Print Assumptions C41_token.
(** It decides exactly which accepted requests are answered without asking; a zero token
    never is. *)
Theorem C41_at_once : forall E key tr st ins p1 p2 data r outs, env_ok E -> history E key (tr ++ [(Apdu CLA ins p1 p2 data r, outs)]) st ->
  accepted outs = true -> ins = INS_KEY \/ (ins = INS_ADDRESS \/ ins = INS_ATTEST) /\ p1 = 1 ->
  known_token tr (Apdu CLA ins p1 p2 data r) /\ (exists b, outs = [OResp b SW_OK]) \/
  ~ known_token tr (Apdu CLA ins p1 p2 data r) /\ (exists k f, outs = [OShow k f []]).
Proof. exact token_decides'. Qed.
Print Assumptions C41_at_once.
(** The start of a signing session always asks; it leaves out the application screen
    exactly for the token approved last.  The attestation screen shows the token. *)
Theorem C41_sign : forall E key tr st e f pages, env_ok E -> history E key (tr ++ [(e, [OShow U_STX_APPROVE f pages])]) st ->
  exists p2 data r t app, e = Apdu CLA INS_SIGN 1 p2 data r /\ path_shown 60 (start_path data) t /\ pages = [] /\
    f = SC_PATH (str "P2PK Signing") t true :: app ++ question_end /\
    (known_token tr e /\ app = [] \/ ~ known_token tr e /\ app = [SC_TEXT (str "Application") (token_text (token_of e))]).
Proof. exact sign_screen. Qed.
Print Assumptions C41_sign.
Theorem C41_attest : forall E key tr st e f pages, env_ok E -> history E key tr st -> on_screen tr = Some (e, U_ATTEST, f, pages) ->
  exists p2 data r, e = Apdu CLA INS_ATTEST 1 p2 data r /\ pages = [] /\
    f = [SC_INFO (str "Confirm Attest Input")] ++ token_screen (token_of e) ++ question_end.
Proof. exact attest_screen. Qed.
Print Assumptions C41_attest.
(** The export above sets the token; the tokenless one at the end clears it. *)
Example C41_ex : map (fun n => remembered (trace (firstn n EXPORTS))) [1; 2; 7; 8]%nat = [0; 0x11223344; 0x11223344; 0] /\
  accepted (snd (nth 2 (trace EXPORTS) (UiAbout, []))) = true /\ accepted (snd (nth 6 (trace EXPORTS) (UiAbout, []))) = true.
Proof. split; [|split]; vm_compute; reflexivity. Qed.

(** C51.  All else being equal, signing accepts exactly the networks 0 and 0x10 and
    address requests exactly 0..252, in every state. *)
Theorem C51_sign : forall E st p2 net rest r, accepted (snd (step E st (Apdu CLA INS_SIGN 1 p2 (net :: rest) r))) = true ->
  (net = 0 \/ net = 0x10) /\
  forall net', accepted (snd (step E st (Apdu CLA INS_SIGN 1 p2 (net' :: rest) r))) = true <-> net' = 0 \/ net' = 0x10.
Proof. exact sign_network. Qed.
Print Assumptions C51_sign.
Theorem C51_address : forall E st p1 p2 net rest r, env_ok E ->
  accepted (snd (step E st (Apdu CLA INS_ADDRESS p1 p2 (net :: rest) r))) = true ->
  net <= 252 /\
  forall net', accepted (snd (step E st (Apdu CLA INS_ADDRESS p1 p2 (net' :: rest) r))) = true <-> net' <= 252.
Proof. exact address_networks. Qed.
Print Assumptions C51_address.
(** The first byte of the exported address is the network plus 1 (the type), below 256. *)
Theorem C51_first_byte : forall E key tr st e outs b, env_ok E -> history E key (tr ++ [(e, outs)]) st ->
  In (OResp b SW_OK) outs -> length b = 38%nat ->
  exists p2 data r, behind tr e U_DA (Apdu CLA INS_ADDRESS 1 p2 data r) /\ hd 0 b = num 0 1 data + 1 /\ hd 0 b <= 253.
Proof. exact address_first. Qed.
Print Assumptions C51_first_byte.
Example C51_ex : accepted (snd (step toy (init TOY_KEY) (cmd_of INS_SIGN 1 1 (0 :: path_bytes ADDRESS0)))) = true /\
  accepted (snd (step toy (init TOY_KEY) ADDRESS_ASK)) = true /\
  step toy (init TOY_KEY) (cmd_of INS_SIGN 1 1 (1 :: path_bytes ADDRESS0)) = (init TOY_KEY, [OResp [] SW_BAD_NET_TYPE_VALUE]) /\
  snd (step toy (init TOY_KEY) (cmd_of INS_ADDRESS 1 1 (253 :: path_bytes ADDRESS0))) = [OResp [] SW_ADDRESS_GENERATION_FAILED] /\
  nth 0 (answer EXPORTS) 0 = 0x11.
Proof. repeat split; vm_compute; reflexivity. Qed.

(** C54.  The start, header and export commands are accepted only at their exact length. *)
Theorem C54_lengths : forall E key tr st ins p1 p2 data r outs n, env_ok E ->
  history E key (tr ++ [(Apdu CLA ins p1 p2 data r, outs)]) st -> accepted outs = true ->
  fixed_length ins p1 p2 data = Some n -> blen data = n.
Proof. exact fixed_lengths. Qed.
Print Assumptions C54_lengths.
(** The input frame, the change path and the confirm command do exactly the same when
    anything is appended to their data. *)
Theorem C54_ignored : forall E st p1 p2 data x r, In p1 [0x12; 0x18; 0x20] ->
  accepted (snd (step E st (Apdu CLA INS_SIGN p1 p2 data r))) = true ->
  step E st (Apdu CLA INS_SIGN p1 p2 (data ++ x) r) = step E st (Apdu CLA INS_SIGN p1 p2 data r).
Proof. exact ignored. Qed.
Print Assumptions C54_ignored.
Example C54_ex : fixed_length INS_KEY 2 0 (path_bytes ACCOUNT0 ++ TOKEN) = Some 17 /\
  accepted (snd (step toy (init TOY_KEY) KEY_ASK)) = true /\
  snd (step toy (init TOY_KEY) (cmd_of INS_KEY 2 0 (path_bytes ACCOUNT0 ++ TOKEN ++ [0]))) = [OResp [] SW_TOO_MUCH_DATA] /\
  accepted (snd (step toy (final (ATTEST_FRAME ++ SIGN_START ++ firstn 2 SIGN_INPUTS)) (nth 2 SIGN_INPUTS UiAbout))) = true.
Proof. repeat split; vm_compute; reflexivity. Qed.
