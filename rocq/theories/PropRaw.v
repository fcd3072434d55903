(** C70: commands are read from the received bytes and from nowhere else. *)
From Verif Require Import Lib Env UiFlow App SpecTrace ReadApp Toy SpecRaw RawProofs.

(** C70.  Whatever lies in the I/O buffer behind the bytes received, and even if there is
    nothing behind them, the device does what it does for the command those bytes are. *)
Theorem C70_received : forall E st io len r, bytes_ok io = true -> len <= blen io ->
  raw_step E st (RawApdu io len r) = step E st (command_of (received io len) r).
Proof. exact raw_apdu_ok. Qed.
Print Assumptions C70_received.
(** Two buffers with the same received bytes cannot be told apart. *)
Theorem C70_behind : forall E st io io' len r, bytes_ok io = true -> bytes_ok io' = true -> len <= blen io -> len <= blen io' ->
  received io len = received io' len -> raw_step E st (RawApdu io len r) = raw_step E st (RawApdu io' len r).
Proof. exact raw_behind. Qed.
Print Assumptions C70_behind.
(** Histories with commands in memory are the histories of SpecTrace: every theorem about
    [history] holds of them. *)
Theorem C70_histories : forall E key tr st, raw_history E key tr st -> history E key (decode tr) st.
Proof. exact raw_decodes. Qed.
Print Assumptions C70_histories.
Theorem C70_all_histories : forall behind E key tr st, bytes_ok behind = true -> history E key tr st ->
  raw_history E key (encode behind tr) st /\ decode (encode behind tr) = tr.
Proof. exact decode_encode. Qed.
Print Assumptions C70_all_histories.
(** In particular no command reads outside the memory that holds it. *)
Theorem C70_in_bounds : forall E key tr st io len r outs, env_ok E ->
  raw_history E key (tr ++ [(RawApdu io len r, outs)]) st -> ~ In OUb outs.
Proof. exact raw_no_ub. Qed.
Print Assumptions C70_in_bounds.

(** A request for a key whose path lacks its last byte, the byte being the next one in the
    buffer: not enough data.  With the byte received, a question to the user. *)
Definition KEY_REQUEST : bytes := [0xE0; 0x10; 1; 0; 12] ++ firstn 12 (path_bytes ACCOUNT0).
Definition ASKED_KEY (o : list output) : bool := match o with [OShow U_EPK _ _] => true | _ => false end.
Example C70_ex :
  snd (raw_step toy (init TOY_KEY) (RawApdu (KEY_REQUEST ++ [0; 0; 0; 0]) 17 RND)) = [OResp [] SW_NOT_ENOUGH_DATA] /\
  snd (raw_step toy (init TOY_KEY) (RawApdu KEY_REQUEST 17 RND)) = [OResp [] SW_NOT_ENOUGH_DATA] /\
  ASKED_KEY (snd (raw_step toy (init TOY_KEY) (RawApdu ([0xE0; 0x10; 1; 0; 13] ++ path_bytes ACCOUNT0 ++ [9; 9]) 18 RND))) = true /\
  raw_history toy TOY_KEY (encode [1; 2; 3] (trace SIGN_ALL)) (final SIGN_ALL) /\ (20 < length (trace SIGN_ALL))%nat.
Proof.
  split; [vm_compute; reflexivity|]. split; [vm_compute; reflexivity|]. split; [vm_compute; reflexivity|]. split.
  - apply decode_encode; [reflexivity|]. apply trace_history. vm_compute. reflexivity.
  - vm_compute. lia.
Qed.
