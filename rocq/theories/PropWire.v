(** C72: one answer to each command, and the packets that carry commands and answers. *)
From Verif Require Import Lib Env UiFlow App SpecTrace SpecScreen ReadApp Toy Wire SpecWire WireProofs.

(** C72.  A command is answered at once, by one answer, or puts one question on the empty
    screen. *)
Theorem C72_command : forall E key tr st e outs, env_ok E -> history E key (tr ++ [(e, outs)]) st -> by_user e = false ->
  (exists b s, outs = [OResp b s]) \/ (on_screen tr = None /\ exists k f pages, outs = [OShow k f pages]).
Proof. exact command_output. Qed.
Print Assumptions C72_command.
(** The user's buttons send an answer only while a question is on the screen, one only, and
    the question is gone; otherwise they turn a page or do nothing (undefined: C53). *)
Theorem C72_user : forall E key tr st e outs, env_ok E -> history E key (tr ++ [(e, outs)]) st -> by_user e = true ->
  outs = [] \/ (exists i title body, outs = [OPage i title body]) \/ outs = [OUb] \/
  (exists b s, outs = [OResp b s] /\ on_screen tr <> None /\ on_screen (tr ++ [(e, outs)]) = None).
Proof. exact user_output. Qed.
Print Assumptions C72_user.
(** A decision is answered to the host, whatever it is. *)
Theorem C72_decision : forall E key tr st e outs q, env_ok E -> history E key (tr ++ [(e, outs)]) st ->
  on_screen tr = Some q -> e = UiApprove \/ e = UiReject -> exists b s, outs = [OResp b s].
Proof. exact decision_output. Qed.
Print Assumptions C72_decision.
(** So at any time the host has as many answers as it sent commands, less one if a question
    is on the screen. *)
Theorem C72_count : forall E key tr st, env_ok E -> history E key tr st ->
  command_count tr = (answer_count tr + open_questions tr)%nat.
Proof. exact count_ok. Qed.
Print Assumptions C72_count.

(** From a packet the host can read the answer: different answers are different packets. *)
Theorem C72_packet : forall d s d' s', packet_of d s = packet_of d' s' -> d = d' /\ s = s'.
Proof. exact packet_inj. Qed.
Print Assumptions C72_packet.
(** Whatever the I/O buffer held at the start, and although commands and answers overwrite
    each other in it, what leaves the device are exactly the packets of the answers of a
    history of the commands that the received packets are. *)
Theorem C72_wire : forall E key io tr w, env_ok E -> blen io = 260 -> wire_history E key io tr w ->
  exists tr', history E key tr' (w_st w) /\ map fst tr' = map (fun o => heard (fst o)) tr /\
    map snd tr = map (fun o => map on_the_wire (snd o)) tr'.
Proof. exact wire_decodes. Qed.
Print Assumptions C72_wire.
(** Conversely every history happens on the wire. *)
Theorem C72_wire_all : forall E key io tr st, env_ok E -> blen io = 260 -> history E key tr st ->
  exists w, w_st w = st /\ wire_history E key io (map (fun o => (spoken (fst o), map on_the_wire (snd o))) tr) w.
Proof. exact wire_encodes. Qed.
Print Assumptions C72_wire_all.
Theorem C72_spoken : forall e, heard (spoken e) = e.
Proof. exact heard_spoken. Qed.
Print Assumptions C72_spoken.

(** The version query as packets, on a buffer full of ones; a whole signing session, with its
    twenty-one events; a question pending. *)
Definition PENDING : list event := ATTEST_FRAME ++ SIGN_START ++ SIGN_INPUTS ++ firstn 3 SIGN_OUTPUTS.
Example C72_ex :
  snd (wire_step toy (mk_wire (init TOY_KEY) (repeat 1 260)) (Receive [0xE0; 0x01; 0; 0; 0] RND)) = [Packet [0; 0; 5; 0; 0x90; 0x00]] /\
  snd (wire_step toy (mk_wire (init TOY_KEY) (repeat 1 260)) (Receive [0xE0; 0x01; 0; 0] RND)) = [Packet [0x6A; 0x87]] /\
  (exists w, w_st w = final SIGN_ALL /\
     wire_history toy TOY_KEY (repeat 1 260) (map (fun o => (spoken (fst o), map on_the_wire (snd o))) (trace SIGN_ALL)) w) /\
  (command_count (trace SIGN_ALL), answer_count (trace SIGN_ALL), open_questions (trace SIGN_ALL)) = (17, 17, 0)%nat /\
  (command_count (trace PENDING), answer_count (trace PENDING), open_questions (trace PENDING)) = (11, 10, 1)%nat.
Proof.
  split; [vm_compute; reflexivity|]. split; [vm_compute; reflexivity|]. split.
  - apply C72_wire_all; [exact toy_ok|reflexivity|]. apply trace_history. vm_compute. reflexivity.
  - split; vm_compute; reflexivity.
Qed.
