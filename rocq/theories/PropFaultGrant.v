(** C81: keys and addresses at the cable, while calls into the operating system fail and after. *)
From Coq Require Import String.
From Verif Require Import Lib Env UiFlow P2pkOp App SpecText SpecTree SpecTx SpecTrace SpecApdu SpecScreen SpecPages SpecRequest SpecStart Toy ReadApp SpecRaw Wire SpecWire Restart Fault LowApp SpecFault
  Buttons SpecButtons ButtonToy Whole SpecWhole WholeToy SpecWallet PropStart SpecGrant FaultButtons FaultToy FaultWhole SpecFaultWhole FaultGrant FaultWholeToy.

(** Whatever the application starts on and whichever calls fail: a packet with an extended
    key leaves the device only when both buttons are pressed with Approve on the display, on
    the question about that key, which the user had all displayed or went by Reject; or at the
    request of an application session approved before, as a run without failures that looks
    the same (C80) tells. *)
Theorem C81_key : forall E U mem page io key a F m w p, env_ok E -> blen io = 260 -> fgoes_on E U (power_on mem page io key) (a ++ [(F, m)]) w ->
  In p (mo_sent m) -> length p = 67%nat -> skipn 65 p = [0x90; 0] ->
  (mo_act m = Presses BOTH /\ shown_last (map snd a) (Some (C_APPROVE, 0%nat)) /\
   exists trs l d p1 data r r' f, Forall2 replays a trs /\ operated E U key l d /\ tells_of E U key (concat trs) l /\
     on_screen (happened l) = Some (Apdu CLA INS_KEY p1 0 data r, U_EPK, f, []) /\ read_all U (map snd a) (Apdu CLA INS_KEY p1 0 data r') f []) \/
  exists data r trs l d, understood (mo_act m) = Host (Apdu CLA INS_KEY 2 0 data r) /\ Forall2 replays a trs /\ operated E U key l d /\ tells_of E U key (concat trs) l /\
    known_token (happened l) (Apdu CLA INS_KEY 2 0 data r).
Proof. exact key_at_cable. Qed.
Print Assumptions C81_key.
(** The same for an address. *)
Theorem C81_address : forall E U mem page io key a F m w p, env_ok E -> blen io = 260 -> fgoes_on E U (power_on mem page io key) (a ++ [(F, m)]) w ->
  In p (mo_sent m) -> length p = 40%nat -> skipn 38 p = [0x90; 0] ->
  (mo_act m = Presses BOTH /\ shown_last (map snd a) (Some (C_APPROVE, 0%nat)) /\
   exists trs l d p2 data r r' f, Forall2 replays a trs /\ operated E U key l d /\ tells_of E U key (concat trs) l /\
     on_screen (happened l) = Some (Apdu CLA INS_ADDRESS 1 p2 data r, U_DA, f, []) /\ read_all U (map snd a) (Apdu CLA INS_ADDRESS 1 p2 data r') f []) \/
  exists data r trs l d, understood (mo_act m) = Host (Apdu CLA INS_ADDRESS 1 2 data r) /\ Forall2 replays a trs /\ operated E U key l d /\ tells_of E U key (concat trs) l /\
    known_token (happened l) (Apdu CLA INS_ADDRESS 1 2 data r).
Proof. exact address_at_cable. Qed.
Print Assumptions C81_address.

(** Once no call fails any more, a request for a key that is in order on a fresh device is
    granted (C77), unless the buttons are dead. *)
Theorem C81_key_granted : forall E U mem page io key tr w p1 data r, env_ok E -> blen io = 260 -> fgoes_on E U (power_on mem page io key) tr w -> ~ dead E U (wh_dev w) ->
  act_ok (Arrives (speak INS_KEY p1 0 data) r) -> key_request_ok E [] p1 0 data r ->
  exists tr1 tr2 w2 b, goes_on E U w (tr1 ++ tr2) w2 /\ Forall (fun m => exists b, mo_act m = Presses b) tr1 /\
    exported_key E (key_path data) b /\
    (p1 = 2 /\ answered_at_once (speak INS_KEY p1 0 data) r (packet_of b SW_OK) tr2 \/
     exists t, is_path_text (key_path data) t /\
       answered_when_read (speak INS_KEY p1 0 data) r (packet_of b SW_OK)
         ([C_INFO (str "Ext PubKey Export"); C_TEXT (str "Path") t] ++ token_cards (token_of (Apdu CLA INS_KEY p1 0 data r))) tr2).
Proof. exact key_after. Qed.
Print Assumptions C81_key_granted.
(** The same for an address. *)
Theorem C81_address_granted : forall E U mem page io key tr w p1 p2 data r, env_ok E -> blen io = 260 -> fgoes_on E U (power_on mem page io key) tr w -> ~ dead E U (wh_dev w) ->
  act_ok (Arrives (speak INS_ADDRESS p1 p2 data) r) -> address_request_ok E [] p1 p2 data r ->
  exists tr1 tr2 w2 b, goes_on E U w (tr1 ++ tr2) w2 /\ Forall (fun m => exists b, mo_act m = Presses b) tr1 /\
    address_at E (address_network data) (address_path data) b /\
    (p1 = 1 /\ p2 = 2 /\ answered_at_once (speak INS_ADDRESS p1 p2 data) r (packet_of b SW_OK) tr2 \/
     exists t a, path_shown 60 (address_path data) t /\ is_base58 b a /\
       answered_when_read (speak INS_ADDRESS p1 p2 data) r (packet_of (if p1 =? 1 then b else []) SW_OK)
         ([C_INFO (str (if p1 =? 1 then "Confirm Send Address" else "Confirm Address")); C_TEXT (str "Path") t] ++ (if p1 =? 1 then [] else [C_TEXT (str "Address") a]) ++
          token_cards (token_of (Apdu CLA INS_ADDRESS p1 p2 data r))) tr2).
Proof. exact address_after. Qed.
Print Assumptions C81_address_granted.

(** On memory left by another run, hashes fail: the signing session does not start and no
    address can be computed, but the key is given, with a token approved by hand and then at
    once; later nothing fails, and all is given. *)
Notation EXPORTS_FAULTY := (flived SECOND_POWER (map (pair HASHES_FAIL) (firstn 4 TO_CONFIRM ++ EXPORTED) ++ map (pair FINE) EXPORTED)).
Example C81_ex : fgoes_on toy toy_ux SECOND_POWER (fst EXPORTS_FAULTY) (snd EXPORTS_FAULTY) /\
  map (fun m => (match mo_act (snd m) with Presses _ => true | Arrives _ _ => false end, map (fun p => (length p, skipn (length p - 2) p)) (mo_sent (snd m)))) (fst EXPORTS_FAULTY) =
    [(false, [(2%nat, [0xE0; 0x0F])]); (true, []); (true, []); (true, []); (false, []); (true, []); (true, []); (true, [(67%nat, [0x90; 0])]);
     (false, [(2%nat, [0xE0; 0x16])]); (false, [(67%nat, [0x90; 0])]); (false, [(2%nat, [0xE0; 0x16])]); (true, []); (true, []); (true, []);
     (false, [(67%nat, [0x90; 0])]); (true, []); (true, []); (true, []); (false, [(40%nat, [0x90; 0])]); (false, [(67%nat, [0x90; 0])]);
     (false, []); (true, []); (true, []); (true, [(40%nat, [0x90; 0])])].
Proof. split; [apply flived_goes, Forall_app; split; apply mild_with; [right; left; reflexivity|left; reflexivity]|vm_compute; reflexivity]. Qed.
(** A question half read after such failures, and requests in order. *)
Notation HALF_READ := (flived SECOND_POWER (map (pair HASHES_FAIL) (firstn 4 TO_CONFIRM ++ TO_KEY ++ [Press RIGHT]))).
Example C81_granted_ex : fgoes_on toy toy_ux SECOND_POWER (fst HALF_READ) (snd HALF_READ) /\ ~ dead toy toy_ux (wh_dev (snd HALF_READ)) /\
  act_ok (Arrives (speak INS_KEY 1 0 (path_bytes ACCOUNT0)) RND) /\ key_request_ok toy [] 1 0 (path_bytes ACCOUNT0) RND /\
  act_ok (Arrives (speak INS_ADDRESS 2 1 (0 :: path_bytes ADDRESS0)) RND) /\ address_request_ok toy [] 2 1 (0 :: path_bytes ADDRESS0) RND.
Proof.
  split; [apply flived_goes, mild_with; right; left; reflexivity|].
  split; [intros D; specialize (D RIGHT); apply (f_equal (fun x => match dv_at (fst x) with P_AT _ i => Some i | _ => None end)) in D; vm_compute in D; discriminate D|].
  split; [split; [vm_compute; reflexivity|]; split; [vm_compute; discriminate|]; split; repeat constructor|]. split; [exact (proj1 C59_ex)|].
  split; [split; [vm_compute; reflexivity|]; split; [vm_compute; discriminate|]; split; repeat constructor|]. exact (proj1 (proj2 C59_ex)).
Qed.
