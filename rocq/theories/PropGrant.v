(** C77: requests for a key or an address are granted. *)
From Coq Require Import String.
From Verif Require Import Lib Env UiFlow App SpecText SpecTree SpecTx SpecTrace SpecApdu SpecScreen SpecPages SpecRequest SpecStart Toy Wire SpecWire Buttons SpecButtons ButtonToy
  Whole SpecWhole WholeToy SpecWallet PropStart SpecGrant WholeGrant.

(** C77.  After anything, unless its buttons are dead (C76), a device can be brought to grant
    a request for a key that is in order on a fresh device: some presses, the command, then
    right until Approve is displayed, then both.  The one answer is the public key and the
    chain code of the path asked for; what the request asks for was displayed before.  With
    a token the answer may come at once. *)
Theorem C77_key : forall E U mem page io key tr w p1 data r, env_ok E -> blen io = 260 -> goes_on E U (power_on mem page io key) tr w -> ~ dead E U (wh_dev w) ->
  act_ok (Arrives (speak INS_KEY p1 0 data) r) -> key_request_ok E [] p1 0 data r ->
  exists tr1 tr2 w2 b, goes_on E U (power_on mem page io key) (tr ++ tr1 ++ tr2) w2 /\ Forall (fun m => exists b, mo_act m = Presses b) tr1 /\
    exported_key E (key_path data) b /\
    (p1 = 2 /\ answered_at_once (speak INS_KEY p1 0 data) r (packet_of b SW_OK) tr2 \/
     exists t, is_path_text (key_path data) t /\
       answered_when_read (speak INS_KEY p1 0 data) r (packet_of b SW_OK)
         ([C_INFO (str "Ext PubKey Export"); C_TEXT (str "Path") t] ++ token_cards (token_of (Apdu CLA INS_KEY p1 0 data r))) tr2).
Proof. exact key_granted. Qed.
Print Assumptions C77_key.

(** The same for an address.  When it is to be returned (P1 = 1) the answer is the address;
    when it is only to be displayed (P1 = 2) its text is displayed, and the answer is empty. *)
Theorem C77_address : forall E U mem page io key tr w p1 p2 data r, env_ok E -> blen io = 260 -> goes_on E U (power_on mem page io key) tr w -> ~ dead E U (wh_dev w) ->
  act_ok (Arrives (speak INS_ADDRESS p1 p2 data) r) -> address_request_ok E [] p1 p2 data r ->
  exists tr1 tr2 w2 b, goes_on E U (power_on mem page io key) (tr ++ tr1 ++ tr2) w2 /\ Forall (fun m => exists b, mo_act m = Presses b) tr1 /\
    address_at E (address_network data) (address_path data) b /\
    (p1 = 1 /\ p2 = 2 /\ answered_at_once (speak INS_ADDRESS p1 p2 data) r (packet_of b SW_OK) tr2 \/
     exists t a, path_shown 60 (address_path data) t /\ is_base58 b a /\
       answered_when_read (speak INS_ADDRESS p1 p2 data) r (packet_of (if p1 =? 1 then b else []) SW_OK)
         ([C_INFO (str (if p1 =? 1 then "Confirm Send Address" else "Confirm Address")); C_TEXT (str "Path") t] ++ (if p1 =? 1 then [] else [C_TEXT (str "Address") a]) ++
          token_cards (token_of (Apdu CLA INS_ADDRESS p1 p2 data r))) tr2).
Proof. exact address_granted. Qed.
Print Assumptions C77_address.

(** A device on memory left by another run, with a question half read. *)
Notation READING := (lived SECOND_POWER (TO_KEY ++ [Press RIGHT])).
Example C77_ex : goes_on toy toy_ux SECOND_POWER (fst READING) (snd READING) /\ ~ dead toy toy_ux (wh_dev (snd READING)) /\
  act_ok (Arrives (speak INS_KEY 1 0 (path_bytes ACCOUNT0)) RND) /\ key_request_ok toy [] 1 0 (path_bytes ACCOUNT0) RND /\
  act_ok (Arrives (speak INS_ADDRESS 2 1 (0 :: path_bytes ADDRESS0)) RND) /\ address_request_ok toy [] 2 1 (0 :: path_bytes ADDRESS0) RND.
Proof.
  split; [apply lived_goes|]. split; [intros D; specialize (D RIGHT); apply (f_equal (fun x => match dv_at (fst x) with P_AT _ i => Some i | _ => None end)) in D; vm_compute in D; discriminate D|].
  split; [split; [vm_compute; reflexivity|]; split; [vm_compute; discriminate|]; split; repeat constructor|]. split; [exact (proj1 C59_ex)|].
  split; [split; [vm_compute; reflexivity|]; split; [vm_compute; discriminate|]; split; repeat constructor|]. exact (proj1 (proj2 C59_ex)).
Qed.
(** The user refuses it; then an address is displayed, read and approved. *)
Notation REFUSED := (TO_KEY ++ [Press LEFT; Press BOTH]).
Notation DISPLAYED := (fst (lived SECOND_POWER (REFUSED ++ Host (cmd_of INS_ADDRESS 2 1 (0 :: path_bytes ADDRESS0)) :: repeat (Press RIGHT) 10 ++ [Press BOTH]))).
Example C77_run_ex :
  map (fun m => match mo_shown m with Some (C_TEXT t _, p) => Some (t, p) | Some (C_APPROVE, p) => Some (str "Approve", p) | _ => None end) (skipn 3 DISPLAYED) =
    [None; Some (str "Path", 0); Some (str "Path", 1); Some (str "Address", 0); Some (str "Address", 1); Some (str "Address", 2); Some (str "Address", 3); Some (str "Address", 4); Some (str "Address", 5); Some (str "Address", 6); Some (str "Approve", 0); None]%nat /\
  map mo_sent DISPLAYED = [[]; []; [[0x69; 0x85]]; []; []; []; []; []; []; []; []; []; []; []; [[0x90; 0]]].
Proof. split; vm_compute; reflexivity. Qed.
