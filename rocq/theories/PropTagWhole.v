(** C83: the whole device, at the cable and under the finger, while cx_hmac_sha256 fails. *)
From Coq Require Import String.
From Verif Require Import Lib Env UiFlow P2pkOp App SpecText SpecTree SpecTx SpecTrace SpecApdu SpecScreen SpecPages SpecRequest SpecSign SpecStart Toy ReadApp SpecRaw Wire SpecWire Restart Fault LowApp SpecFault
  Buttons SpecButtons ButtonProofs ButtonToy Whole SpecWhole WholeToy SpecHost SpecWallet PropHost WalletToy PropStart SpecGrant
  FaultButtons FaultToy FaultWhole SpecFaultWhole FaultWholeToy SpecTags TagToy PropTags SpecTagWhole TagWhole TagCable TagWholeToy.

(** Whatever the application starts on, and whichever calls fail, cx_hmac_sha256 among them:
    packets and display are those of a run of C80, in which it does not fail, moment by
    moment, but for the tags in frames, and for frames refused; and the device ends up in the
    same state. *)
Theorem C83_run : forall E U mem page io key, env_ok E -> blen io = 260 -> forall tr w, hgoes_on E U (power_on mem page io key) tr w ->
  exists tr' w', Forall2 sent_right tr tr' /\ fgoes_on E U (power_on mem page io key) tr' w' /\ wh_dev w' = wh_dev w.
Proof. exact cable_retagged. Qed.
Print Assumptions C83_run.

(** A packet with a signature leaves the device only when both buttons are pressed with
    Approve on the display, on the final question of a signing session that a run without
    failures has as well, and which the user had all displayed or went by Reject. *)
Theorem C83_signature : forall E U mem page io key a F m w p, env_ok E -> blen io = 260 -> hgoes_on E U (power_on mem page io key) (a ++ [(F, m)]) w ->
  In p (mo_sent m) -> length p = 58%nat -> skipn 56 p = [0x90; 0] ->
  mo_act m = Presses BOTH /\ shown_last (map snd a) (Some (C_APPROVE, 0%nat)) /\
  exists a1 trs w' l d q q' f pages, Forall2 sent_right a a1 /\ Forall2 replays a1 trs /\ goes_on E U (power_on mem page io key) (concat trs ++ [m]) w' /\
    operated E U key l d /\ tells_of E U key (concat trs) l /\ on_screen (happened l) = Some (q, U_STX_TX, f, pages) /\ same_event q' q /\ read_all U (map snd a) q' f pages.
Proof. exact signed_untagged_cable. Qed.
Print Assumptions C83_signature.

(** The same for an extended key, or it leaves at the request of an application session
    approved before. *)
Theorem C83_key : forall E U mem page io key a F m w p, env_ok E -> blen io = 260 -> hgoes_on E U (power_on mem page io key) (a ++ [(F, m)]) w ->
  In p (mo_sent m) -> length p = 67%nat -> skipn 65 p = [0x90; 0] ->
  (mo_act m = Presses BOTH /\ shown_last (map snd a) (Some (C_APPROVE, 0%nat)) /\
   exists a1 trs l d p1 data r r' f, Forall2 sent_right a a1 /\ Forall2 replays a1 trs /\ operated E U key l d /\ tells_of E U key (concat trs) l /\
     on_screen (happened l) = Some (Apdu CLA INS_KEY p1 0 data r, U_EPK, f, []) /\ read_all U (map snd a) (Apdu CLA INS_KEY p1 0 data r') f []) \/
  exists data r a1 trs l d, understood (mo_act m) = Host (Apdu CLA INS_KEY 2 0 data r) /\ Forall2 sent_right a a1 /\ Forall2 replays a1 trs /\ operated E U key l d /\ tells_of E U key (concat trs) l /\
    known_token (happened l) (Apdu CLA INS_KEY 2 0 data r).
Proof. exact key_untagged. Qed.
Print Assumptions C83_key.

(** The same for an address. *)
Theorem C83_address : forall E U mem page io key a F m w p, env_ok E -> blen io = 260 -> hgoes_on E U (power_on mem page io key) (a ++ [(F, m)]) w ->
  In p (mo_sent m) -> length p = 40%nat -> skipn 38 p = [0x90; 0] ->
  (mo_act m = Presses BOTH /\ shown_last (map snd a) (Some (C_APPROVE, 0%nat)) /\
   exists a1 trs l d p2 data r r' f, Forall2 sent_right a a1 /\ Forall2 replays a1 trs /\ operated E U key l d /\ tells_of E U key (concat trs) l /\
     on_screen (happened l) = Some (Apdu CLA INS_ADDRESS 1 p2 data r, U_DA, f, []) /\ read_all U (map snd a) (Apdu CLA INS_ADDRESS 1 p2 data r') f []) \/
  exists data r a1 trs l d, understood (mo_act m) = Host (Apdu CLA INS_ADDRESS 1 2 data r) /\ Forall2 sent_right a a1 /\ Forall2 replays a1 trs /\ operated E U key l d /\ tells_of E U key (concat trs) l /\
    known_token (happened l) (Apdu CLA INS_ADDRESS 1 2 data r).
Proof. exact address_untagged. Qed.
Print Assumptions C83_address.

(** Once no call fails any more, the device still serves any wallet, unless the buttons are
    dead (C80). *)
Theorem C83_serves : forall E U mem page io key tr w p r, env_ok E -> blen io = 260 -> hgoes_on E U (power_on mem page io key) tr w -> ~ dead E U (wh_dev w) ->
  tx_fits E (pl_tx p) -> act_ok (Arrives (opening p) r) -> sign_request_ok E (pl_p2 p) (pl_start p) r ->
  exists tr1 tr2 w2 s, goes_on E U w (tr1 ++ tr2) w2 /\ Forall (fun m => exists b, mo_act m = Presses b) tr1 /\
    talks E p (map snd tr ++ tr1) tr2 s false /\ good_end E p tr2 s.
Proof. exact serves_untagged. Qed.
Print Assumptions C83_serves.

(** And it grants any request for a key that is in order, *)
Theorem C83_key_granted : forall E U mem page io key tr w p1 data r, env_ok E -> blen io = 260 -> hgoes_on E U (power_on mem page io key) tr w -> ~ dead E U (wh_dev w) ->
  act_ok (Arrives (speak INS_KEY p1 0 data) r) -> key_request_ok E [] p1 0 data r ->
  exists tr1 tr2 w2 b, goes_on E U w (tr1 ++ tr2) w2 /\ Forall (fun m => exists b, mo_act m = Presses b) tr1 /\
    exported_key E (key_path data) b /\
    (p1 = 2 /\ answered_at_once (speak INS_KEY p1 0 data) r (packet_of b SW_OK) tr2 \/
     exists t, is_path_text (key_path data) t /\
       answered_when_read (speak INS_KEY p1 0 data) r (packet_of b SW_OK)
         ([C_INFO (str "Ext PubKey Export"); C_TEXT (str "Path") t] ++ token_cards (token_of (Apdu CLA INS_KEY p1 0 data r))) tr2).
Proof. exact key_after_untagged. Qed.
Print Assumptions C83_key_granted.

(** or for an address. *)
Theorem C83_address_granted : forall E U mem page io key tr w p1 p2 data r, env_ok E -> blen io = 260 -> hgoes_on E U (power_on mem page io key) tr w -> ~ dead E U (wh_dev w) ->
  act_ok (Arrives (speak INS_ADDRESS p1 p2 data) r) -> address_request_ok E [] p1 p2 data r ->
  exists tr1 tr2 w2 b, goes_on E U w (tr1 ++ tr2) w2 /\ Forall (fun m => exists b, mo_act m = Presses b) tr1 /\
    address_at E (address_network data) (address_path data) b /\
    (p1 = 1 /\ p2 = 2 /\ answered_at_once (speak INS_ADDRESS p1 p2 data) r (packet_of b SW_OK) tr2 \/
     exists t a, path_shown 60 (address_path data) t /\ is_base58 b a /\
       answered_when_read (speak INS_ADDRESS p1 p2 data) r (packet_of (if p1 =? 1 then b else []) SW_OK)
         ([C_INFO (str (if p1 =? 1 then "Confirm Send Address" else "Confirm Address")); C_TEXT (str "Path") t] ++ (if p1 =? 1 then [] else [C_TEXT (str "Address") a]) ++
          token_cards (token_of (Apdu CLA INS_ADDRESS p1 p2 data r))) tr2).
Proof. exact address_after_untagged. Qed.
Print Assumptions C83_address_granted.

(** Samples, on memory left by an earlier run and with cx_hmac_sha256 failing all the time: a
    box is attested with a frame of zeros for its tag, and a transaction with that input is
    signed; keys and addresses are asked for and given. *)
Notation SIGNED_ZERO := (hlived SECOND_POWER (BY_HAND ++ [Press BOTH])).
Notation EXPORTED_ZERO := (hlived SECOND_POWER EXPORTED).
Notation sizes := (map (fun m : faults * moment => (match mo_act (snd m) with Presses _ => true | Arrives _ _ => false end, map (fun p => (length p, skipn (length p - 2) p)) (mo_sent (snd m))))).
Example C83_signature_ex : hgoes_on toy toy_ux SECOND_POWER (fst SIGNED_ZERO) (snd SIGNED_ZERO) /\
  sizes (skipn 27 (fst SIGNED_ZERO)) = [(true, [(58%nat, [0x90; 0])])] /\
  ~ dead toy toy_ux (wh_dev (snd SIGNED_ZERO)) /\
  tx_fits toy (pl_tx PLAN) /\ act_ok (Arrives (opening PLAN) RND) /\ sign_request_ok toy (pl_p2 PLAN) (pl_start PLAN) RND.
Proof.
  split; [apply hlived_goes|]. split; [vm_compute; reflexivity|].
  split; [intros D; specialize (D RIGHT); apply (f_equal (fun x => dv_at (fst x))) in D; vm_compute in D; discriminate D|].
  split; [exact (proj1 (proj2 (proj2 C61_ex)))|].
  split; [split; [vm_compute; reflexivity|]; split; [vm_compute; discriminate|]; split; repeat constructor|]. exact plan_request.
Qed.
Example C83_key_ex : hgoes_on toy toy_ux SECOND_POWER (fst EXPORTED_ZERO) (snd EXPORTED_ZERO) /\
  sizes (fst EXPORTED_ZERO) =
    [(false, []); (true, []); (true, []); (true, [(67%nat, [0x90; 0])]); (false, [(40%nat, [0x90; 0])]); (false, [(67%nat, [0x90; 0])]);
     (false, []); (true, []); (true, []); (true, [(40%nat, [0x90; 0])])] /\
  ~ dead toy toy_ux (wh_dev (snd EXPORTED_ZERO)) /\
  act_ok (Arrives (speak INS_KEY 1 0 (path_bytes ACCOUNT0)) RND) /\ key_request_ok toy [] 1 0 (path_bytes ACCOUNT0) RND /\
  act_ok (Arrives (speak INS_ADDRESS 2 1 (0 :: path_bytes ADDRESS0)) RND) /\ address_request_ok toy [] 2 1 (0 :: path_bytes ADDRESS0) RND.
Proof.
  split; [apply hlived_goes|]. split; [vm_compute; reflexivity|].
  split; [intros D; specialize (D RIGHT); apply (f_equal (fun x => dv_at (fst x))) in D; vm_compute in D; discriminate D|].
  split; [split; [vm_compute; reflexivity|]; split; [vm_compute; discriminate|]; split; repeat constructor|]. split; [exact (proj1 C59_ex)|].
  split; [split; [vm_compute; reflexivity|]; split; [vm_compute; discriminate|]; split; repeat constructor|]. exact (proj1 (proj2 C59_ex)).
Qed.
