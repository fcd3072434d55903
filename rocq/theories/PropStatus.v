(** C69: what the error codes say. *)
From Verif Require Import Lib Env UiFlow App SpecTrace SpecTx SpecApdu SpecScreen SpecSign SpecAccept SpecAttest SpecStart SpecStatus Toy RulesToy StatusTrace.

(** C69.  An error code is never wrong about its cause: an answer other than success carries
    no data, and what [meaning] says of its code holds of the request and of the requests
    before it. *)
Theorem C69_meaning : forall E key tr e outs st b s, env_ok E -> history E key (tr ++ [(e, outs)]) st -> In (OResp b s) outs -> s <> SW_OK ->
  b = [] /\ meaning E key tr e s.
Proof. exact meaning_holds. Qed.
Print Assumptions C69_meaning.
(** "Denied" is the answer to a rejection on the screen and to nothing else. *)
Theorem C69_denied : forall E key tr e outs st b, env_ok E -> history E key (tr ++ [(e, outs)]) st -> In (OResp b SW_DENY) outs ->
  e = UiReject /\ on_screen tr <> None.
Proof. exact deny_means. Qed.
Print Assumptions C69_denied.
(** "Bad frame signature" is said of input frames of an open signing session, and only if
    the tag is not that of the device (or the frame has more tokens than frames have). *)
Theorem C69_bad_tag : forall E key tr e outs st b, env_ok E -> history E key (tr ++ [(e, outs)]) st -> In (OResp b SW_BAD_FRAME_SIGNATURE) outs ->
  exists sid data r start body, e = Apdu CLA INS_SIGN 0x12 sid data r /\ signing sid tr start body /\
    ((4 < frame_ntokens data)%nat \/ frame_tag data <> firstn 16 (e_hmac E key (frame_body data))).
Proof. exact bad_tag_means. Qed.
Print Assumptions C69_bad_tag.

(** Answers of the device at several points of the sample sessions. *)
Definition code_after (evs : list event) (e : event) : list output := snd (last (trace (evs ++ [e])) NO_OBS).
Definition codes (evs : list event) (es : list event) : list sw :=
  map (fun e => match code_after evs e with [OResp [] s] => s | _ => SW_OK end) es.
Definition FRAMES : list event := ATTEST_FRAME ++ SIGN_START ++ firstn 2 SIGN_INPUTS.
Example C69_ex :
  (exists st, history toy TOY_KEY (trace (FRAMES ++ [sign_cmd 0x12 (repeat 1 103)])) st) /\
  codes [] [Apdu 0 INS_KEY 1 0 [] RND; cmd_of 0x30 0 0 []; cmd_of INS_KEY 3 0 []; cmd_of INS_KEY 1 0 []; BadApdu;
            cmd_of INS_KEY 1 0 (path_bytes ACCOUNT0 ++ [0]); cmd_of INS_KEY 1 0 (path_bytes [1; 2; 3]);
            cmd_of INS_ADDRESS 1 1 (253 :: path_bytes ADDRESS0); cmd_of INS_SIGN 1 3 []; cmd_of INS_SIGN 1 1 [0; 5];
            cmd_of INS_SIGN 1 1 (1 :: path_bytes ADDRESS0); cmd_of INS_SIGN 0x10 7 []; cmd_of INS_SIGN 0x30 7 []] =
    [SW_CLA_NOT_SUPPORTED; SW_INS_NOT_SUPPORTED; SW_WRONG_P1P2; SW_NOT_ENOUGH_DATA; SW_WRONG_APDU_DATA_LENGTH;
     SW_TOO_MUCH_DATA; SW_BIP32_BAD_PATH;
     SW_ADDRESS_GENERATION_FAILED; SW_WRONG_P1P2; SW_BUFFER_ERROR;
     SW_BAD_NET_TYPE_VALUE; SW_BAD_STATE; SW_WRONG_SUBCOMMAND] /\
  codes [hd BadApdu SIGN_START] [cmd_of INS_KEY 1 0 []; UiReject] = [SW_BUSY; SW_DENY] /\
  codes ATTEST [cmd_of INS_ATTEST 5 8 [0]; cmd_of INS_ATTEST 5 7 [1]; cmd_of INS_ATTEST 5 7 []; cmd_of INS_ATTEST 4 7 [1]; cmd_of INS_ATTEST 6 7 []] =
    [SW_BAD_SESSION_ID; SW_BAD_FRAME_INDEX; SW_NOT_ENOUGH_DATA; SW_BAD_STATE; SW_WRONG_SUBCOMMAND] /\
  codes FRAMES [sign_cmd 0x12 (repeat 1 103); sign_cmd 0x12 (FRAME ++ [0]); sign_cmd 0x12 (FRAME ++ be_bytes 4 1);
                sign_cmd 0x11 TOKEN_B; sign_cmd 0x10 (be_bytes 2 1 ++ be_bytes 2 0 ++ be_bytes 1 1 ++ be_bytes 2 3)] =
    [SW_BAD_FRAME_SIGNATURE; SW_NOT_ENOUGH_DATA; SW_BAD_CONTEXT_EXTENSION_SIZE; SW_BAD_STATE; SW_BAD_STATE].
Proof.
  split; [eexists; apply trace_history; vm_compute; reflexivity|]. split; [vm_compute; reflexivity|]. split; [vm_compute; reflexivity|]. split; vm_compute; reflexivity.
Qed.
