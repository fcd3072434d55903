(** Runs in which cx_hmac_sha256 may fail too, unnoticed; and runs in which it does not that
    differ from them in tags only. *)
From Verif Require Import Base Env UiFlow App SpecApdu SpecTx SpecTrace SpecScreen Fault LowApp SpecFault Buttons SpecButtons FaultButtons SpecFaultRun.

(** A failing cx_hmac_sha256 leaves some 32 bytes where the HMAC belongs. *)
Definition leaves_bytes (F : faults) : Prop := forall key l g, f_hmac F key l = Some g -> length g = 32%nat /\ bytes_ok g = true.
Definition hmac_failed (F : faults) : Prop := exists key l g, f_hmac F key l = Some g.
(** The same failures, but for those of cx_hmac_sha256. *)
Definition tags_right (F : faults) : faults :=
  mk_faults (f_init F) (f_update F) (f_final F) (f_hash F) (f_derive F) (f_pub F) (f_round F) (f_finish F) (fun _ _ => None) (f_stack F).

(** As [fhistory] (SpecFault.v) and [foperated] (SpecFaultRun.v), without [hmac_works]. *)
Inductive hhistory (E : env) (key : bytes) : list (faults * obs) -> state -> Prop :=
| hhistory_start : hhistory E key [] (init key)
| hhistory_step : forall tr st F e outs st', hhistory E key tr st -> stack_ok F -> leaves_bytes F -> event_ok e ->
    fstep E F st e = (st', outs) -> ~ In ODiverge outs -> hhistory E key (tr ++ [(F, (e, outs))]) st'.
Inductive hoperated (E : env) (U : ux) (key : bytes) : list fdeed -> device -> Prop :=
| hoperated_start : hoperated E U key [] (switched_on key)
| hoperated_more : forall l d F a d' os, hoperated E U key l d -> stack_ok F -> leaves_bytes F -> action_ok a ->
    foperate E F U d a = (d', os) -> sound os -> hoperated E U key (l ++ [(F, (a, os))]) d'.

(** A command whose tag was not computed, and what stands for it where tags are computed: an
    attested frame was given, which differs in its tag; or an input frame was sent, with
    another tag; or an input frame was refused, as another one. *)
Inductive retagged : obs -> obs -> Prop :=
| rt_given : forall p2 data r a t t', length t = 16%nat -> length t' = 16%nat ->
    retagged (Apdu CLA INS_ATTEST 5 p2 data r, [OResp (a ++ t) SW_OK]) (Apdu CLA INS_ATTEST 5 p2 data r, [OResp (a ++ t') SW_OK])
| rt_taken : forall p2 a t t' b r outs, length t = 16%nat -> length t' = 16%nat -> (43 <= length a)%nat ->
    retagged (Apdu CLA INS_SIGN 0x12 p2 (a ++ t ++ b) r, outs) (Apdu CLA INS_SIGN 0x12 p2 (a ++ t' ++ b) r, outs)
| rt_refused : forall p2 data data' r s, s <> SW_OK ->
    retagged (Apdu CLA INS_SIGN 0x12 p2 data r, [OResp [] s]) (Apdu CLA INS_SIGN 0x12 p2 data' r, [OResp [] s]).

(** The same observation with the same failures but those of cx_hmac_sha256, or, if that
    failed, one for it as above. *)
Inductive tagged_right : faults * obs -> faults * obs -> Prop :=
| tr_same : forall F o, tagged_right (F, o) (tags_right F, o)
| tr_other : forall F o o', hmac_failed F -> retagged o o' -> tagged_right (F, o) (tags_right F, o').
(** And so for actions by hand. *)
Inductive handed_right : fdeed -> fdeed -> Prop :=
| hr_same : forall F x, handed_right (F, x) (tags_right F, x)
| hr_other : forall F e outs e' outs', hmac_failed F -> retagged (e, outs) (e', outs') ->
    handed_right (F, (Host e, [(e, outs)])) (tags_right F, (Host e', [(e', outs')])).

(** As [fseen] (SpecFaultRun.v). *)
Definition hseen (E : env) (U : ux) (key : bytes) (l l' : list fdeed) (c : card) (p : nat) : Prop :=
  exists l1 l2 d, l' = l1 ++ l2 /\ hoperated E U key (l ++ l1) d /\ displayed d = Some (c, p).
