(** C59: exactly which opening requests the device accepts. *)
From Verif Require Import Lib Env UiFlow App SpecTrace SpecTx SpecApdu SpecScreen SpecRequest SpecSign SpecAccept SpecStart Toy RulesToy StartAccept.

(** C59.  A request for a key, for an address, to attest a box or to sign is accepted
    (answered, or put to the user) if and only if nothing is asked on the screen and the
    request is in order; what happened before only matters through the token approved
    last. *)
Theorem C59_key : forall E key tr st p1 p2 data r, env_ok E -> history E key tr st -> event_ok (Apdu CLA INS_KEY p1 p2 data r) ->
  (accepted (snd (step E st (Apdu CLA INS_KEY p1 p2 data r))) = true <-> on_screen tr = None /\ key_request_ok E tr p1 p2 data r).
Proof. exact accepts_key. Qed.
Print Assumptions C59_key.
Theorem C59_address : forall E key tr st p1 p2 data r, env_ok E -> history E key tr st -> event_ok (Apdu CLA INS_ADDRESS p1 p2 data r) ->
  (accepted (snd (step E st (Apdu CLA INS_ADDRESS p1 p2 data r))) = true <-> on_screen tr = None /\ address_request_ok E tr p1 p2 data r).
Proof. exact accepts_address. Qed.
Print Assumptions C59_address.
Theorem C59_attest : forall E key tr st p2 data r, env_ok E -> history E key tr st -> event_ok (Apdu CLA INS_ATTEST 1 p2 data r) ->
  (accepted (snd (step E st (Apdu CLA INS_ATTEST 1 p2 data r))) = true <-> on_screen tr = None /\ attest_request_ok p2 data r).
Proof. exact accepts_attest. Qed.
Print Assumptions C59_attest.
Theorem C59_sign : forall E key tr st p2 data r, env_ok E -> history E key tr st -> event_ok (Apdu CLA INS_SIGN 1 p2 data r) ->
  (accepted (snd (step E st (Apdu CLA INS_SIGN 1 p2 data r))) = true <-> on_screen tr = None /\ sign_request_ok E p2 data r).
Proof. exact accepts_sign. Qed.
Print Assumptions C59_sign.

(** On a fresh device: requests in order are accepted; eleven components, a text of 60
    characters that ends hardened, 21 tokens or a random source without a usable nonce
    are refused. *)
Definition H (n : N) : N := 2 ^ 31 + n.
Definition first_answer (e : event) : list output := snd (step toy (init TOY_KEY) e).
Definition long_account (n : N) : list N := [H 44; H 429; H 10; H 1000000000; H 1000000000; H 1000000000; H n].
Definition long_address (n : N) : list N := [H 44; H 429; H 0; 0; 1000000000; 1000000000; 1000000000; 1000000000; n].
Definition box_head (ntokens : N) : bytes :=
  repeat 1 32 ++ be_bytes 2 0 ++ be_bytes 8 1000000000 ++ be_bytes 4 36 ++ be_bytes 4 500 ++ be_bytes 1 ntokens ++ be_bytes 4 0.
Example C59_ex :
  key_request_ok toy [] 1 0 (path_bytes ACCOUNT0) RND /\ address_request_ok toy [] 2 1 (0 :: path_bytes ADDRESS0) RND /\
  attest_request_ok 1 (box_head 20) RND /\ sign_request_ok toy 1 (0 :: path_bytes ADDRESS0) RND /\
  map accepted [first_answer (cmd_of INS_KEY 1 0 (path_bytes (long_account 100000000)));
                first_answer (cmd_of INS_KEY 1 0 (path_bytes (long_account 1000000000)));
                first_answer (cmd_of INS_ADDRESS 1 1 (0 :: path_bytes (long_address 1000000000)));
                first_answer (cmd_of INS_KEY 1 0 (path_bytes (ACCOUNT0 ++ repeat (H 0) 7)));
                first_answer (cmd_of INS_KEY 1 0 (path_bytes (ACCOUNT0 ++ repeat (H 0) 8)));
                first_answer (cmd_of INS_ATTEST 1 1 (box_head 21));
                first_answer (Apdu CLA INS_SIGN 1 1 (0 :: path_bytes ADDRESS0) (mk_rnd [repeat 0 32] [7]))] =
  [true; false; true; true; false; false; false].
Proof.
  split. { apply (accepts_key toy TOY_KEY [] (init TOY_KEY) 1 0 _ RND toy_ok (history_start _ _)); [apply event_okb_ok|]; vm_compute; reflexivity. }
  split. { apply (accepts_address toy TOY_KEY [] (init TOY_KEY) 2 1 _ RND toy_ok (history_start _ _)); [apply event_okb_ok|]; vm_compute; reflexivity. }
  split. { apply (accepts_attest toy TOY_KEY [] (init TOY_KEY) 1 _ RND toy_ok (history_start _ _)); [apply event_okb_ok|]; vm_compute; reflexivity. }
  split. { apply (accepts_sign toy TOY_KEY [] (init TOY_KEY) 1 _ RND toy_ok (history_start _ _)); [apply event_okb_ok|]; vm_compute; reflexivity. }
  vm_compute. reflexivity.
Qed.
