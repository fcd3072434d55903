(** C60 and C61: exchanges from the first command to the last. *)
From Verif Require Import Lib Env UiFlow App SpecTrace SpecTx SpecAmounts SpecApdu SpecScreen SpecRequest SpecSign SpecRules SpecAccept SpecAttest SpecStart SpecHost Toy StartAccept HostAttest HostRun.

(** C60.  For every box within the limits, whatever happened before, if nothing is asked on
    the screen: the wallet's commands for the box (start, script, tokens, registers) are
    all accepted once the user approves, and each frame it then asks for is the attested
    frame of that box. *)
Theorem C60_attest : forall E key tr st b r, env_ok E -> history E key tr st -> on_screen tr = None ->
  box_fits b -> rnd_ok r -> id_drawn r ->
  exists sid tr1 st', history E key (tr ++ tr1 ++ frame_exchanges E key b sid r) st' /\
    map fst tr1 = attest_events b sid r /\ all_accepted tr1 /\ nth_error tr1 1 = Some (UiApprove, [OResp [sid] SW_OK]).
Proof. exact attest_whole. Qed.
Print Assumptions C60_attest.

(** After an attestation and with a half-described box: a script of 300 bytes, seven
    tokens, ten bytes of registers; five commands and two frames. *)
Definition BIG_BOX : w_box :=
  mk_wb (repeat 1 32) 2 1000000000 500 (repeat 3 300) (map (fun i => (repeat i 32, 1000 + i)) [1; 2; 3; 4; 5; 6; 7]) (repeat 9 10).
Example big_box_fits : box_fits BIG_BOX.
Proof.
  unfold box_fits. do 4 (split; [vm_compute; auto|]). do 2 (split; [vm_compute; (reflexivity || discriminate)|]).
  split. { unfold BIG_BOX. cbn [wb_tokens map]. repeat constructor. }
  split; [vm_compute; discriminate|]. split; [|split; vm_compute; (reflexivity || discriminate)].
  unfold BIG_BOX. cbn [wb_tokens map fst repeat]. repeat constructor; cbn [In]; intuition discriminate.
Qed.
Definition BEFORE : list event := ATTEST_FRAME ++ [attest_start 1 (repeat 1 32) 2 1000000000 300 500 2 10 []; UiApprove; cmd_of INS_ATTEST 2 7 (repeat 3 255)].
Example C60_ex : history toy TOY_KEY (trace BEFORE) (final BEFORE) /\ on_screen (trace BEFORE) = None /\
  box_fits BIG_BOX /\ rnd_ok RND /\ id_drawn RND /\
  map fst (box_commands BIG_BOX) = [2; 2; 3; 3; 4] /\ frame_numbers BIG_BOX = [0; 1] /\
  trace (BEFORE ++ attest_events BIG_BOX 7 RND ++ map fst (frame_exchanges toy TOY_KEY BIG_BOX 7 RND)) =
    trace (BEFORE ++ attest_events BIG_BOX 7 RND) ++ frame_exchanges toy TOY_KEY BIG_BOX 7 RND.
Proof.
  split; [apply trace_history; vm_compute; reflexivity|]. split; [vm_compute; reflexivity|].
  split; [exact big_box_fits|].
  split. { split; repeat constructor. }
  split. { exists 7. split; [right; left; reflexivity|discriminate]. }
  do 2 (split; [vm_compute; reflexivity|]). vm_compute. reflexivity.
Qed.

(** C61.  For every transaction within the limits, whatever happened before, if nothing is
    asked on the screen and the start request is in order: the wallet's commands for the
    transaction, with the frames the device gave out for the inputs, are all accepted if
    the user approves whatever is shown, and the last approval is answered with a
    signature of exactly that transaction; or, if the hash of it begins with 24 zero bytes,
    with an error. *)
Theorem C61_sign : forall E key tr st w p2 data r, env_ok E -> history E key tr st -> on_screen tr = None ->
  event_ok (Apdu CLA INS_SIGN 1 p2 data r) -> sign_request_ok E p2 data r -> tx_fits E w ->
  exists sid tr1 answer st' start, history E key (tr ++ tr1 ++ [(UiApprove, answer)]) st' /\
    nth_error tr1 0 = Some start /\ nth_error tr1 1 = Some (UiApprove, [OResp [sid] SW_OK]) /\
    requests tr1 = sign_requests E key w p2 data sid r /\ user_approves tr1 /\ all_accepted tr1 /\
    ((exists sig, answer = [OResp sig SW_OK] /\ signed_message E start (bytes_to_sign E (wanted E w)) sig) \/
     answer = [OResp [] SW_SCHNORR_SIGNING_FAILED] /\ zero_challenge E start (bytes_to_sign E (wanted E w))).
Proof. exact sign_whole. Qed.
Print Assumptions C61_sign.

(** Two inputs, of which one has two frames, seven tokens and a context extension; one
    token declared; a data input; 300 bytes of script with a token and registers, the
    fee, and change. *)
Definition SMALL_BOX : w_box := mk_wb (repeat 8 32) 0 500000000 400 BOX_TREE [] [].
Definition BIG_TX : w_tx := mk_wtx [repeat 2 32] [(BIG_BOX, [1; 0; 5]); (SMALL_BOX, [])] [repeat 4 32]
  [mk_wo 1200000000 600 (SD_TREE (repeat 3 300)) [(0, 900)] [1; 14; 1; 255];
   mk_wo 1000000 600 SD_FEE [] []; mk_wo 299000000 600 (SD_CHANGE ADDRESS0) [(0, 102)] []].
Definition START61 : bytes := 0 :: path_bytes ADDRESS0.
Definition WITH_APPROVALS : list event :=
  let l := sign_requests toy TOY_KEY BIG_TX 1 START61 7 RND in
  firstn 1 l ++ [UiApprove] ++ firstn 12 (skipn 1 l) ++ [UiApprove] ++ skipn 13 l ++ [UiApprove].
Example C61_ex : event_ok (Apdu CLA INS_SIGN 1 1 START61 RND) /\ sign_request_ok toy 1 START61 RND /\ tx_fits toy BIG_TX /\
  map fst (tx_commands toy TOY_KEY BIG_TX) = [0x10; 0x11; 0x12; 0x12; 0x13; 0x12; 0x14; 0x15; 0x16; 0x16; 0x19; 0x1A; 0x15; 0x17; 0x15; 0x18; 0x19] /\
  map (fun o => accepted (snd o)) (trace WITH_APPROVALS) = repeat true 22.
Proof.
  split; [apply event_okb_ok; vm_compute; reflexivity|].
  split. { apply (accepts_sign toy TOY_KEY [] (init TOY_KEY) 1 _ RND toy_ok (history_start _ _)); [apply event_okb_ok|]; vm_compute; reflexivity. }
  split.
  { assert (A : is_address_path ADDRESS0 /\ derivable toy ADDRESS0).
    { assert (Q : address_request_ok toy [] 2 1 START61 RND) by (apply (accepts_address toy TOY_KEY [] (init TOY_KEY) 2 1 _ RND toy_ok (history_start _ _)); [apply event_okb_ok|]; vm_compute; reflexivity).
      destruct Q as (_ & _ & _ & _ & Q1 & _ & Q2 & _). replace ADDRESS0 with (address_path START61) by (vm_compute; reflexivity). split; assumption. }
    destruct A as [A1 A2]. pose proof big_box_fits as B1.
    assert (B2 : box_fits SMALL_BOX).
    { unfold box_fits. do 4 (split; [vm_compute; auto|]). do 2 (split; [vm_compute; (reflexivity || discriminate)|]). split; [constructor|]. split; [vm_compute; discriminate|]. split; [constructor|split; vm_compute; (reflexivity || discriminate)]. }
    assert (R : in_range (wanted toy BIG_TX) /\ forall id, amount_of id (input_tokens (wanted toy BIG_TX)) < 2 ^ 63)
      by (apply range_of_totals; vm_compute; (reflexivity || discriminate)).
    destruct R as [R1 R2]. unfold tx_fits. do 3 (split; [vm_compute; auto|]). split; [repeat constructor|].
    split. { constructor; [|constructor; [|constructor]]; (split; [assumption|]; split; [vm_compute; reflexivity|]; split; vm_compute; discriminate). }
    split; [repeat constructor|].
    split.
    { constructor; [|constructor; [|constructor; [|constructor]]];
        (do 2 (split; [vm_compute; reflexivity|]); split; [|split; [repeat constructor|split; [vm_compute; discriminate|]];
          split; [apply short_no_repeat; vm_compute; auto|split; vm_compute; (reflexivity || discriminate)]]).
      - split; vm_compute; (reflexivity || discriminate).
      - exact I.
      - do 2 (split; [assumption || (unfold ADDRESS0; repeat constructor)|]). split; [vm_compute; repeat constructor|exact A2]. }
    split; [vm_compute; discriminate|]. split; assumption. }
  split; [vm_compute; reflexivity|]. vm_compute. reflexivity.
Qed.
