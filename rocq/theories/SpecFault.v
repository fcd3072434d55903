(** What can go wrong inside one event, and how the device may report it. *)
From Verif Require Import Base Env Fault App LowApp SpecTrace.

(** Some call into the operating system fails. *)
Inductive call_failed (F : faults) : Prop :=
| cf_init : f_init F = true -> call_failed F
| cf_update : forall s h l g, f_update F s h l = Some g -> call_failed F
| cf_final : forall s h, f_final F s h = true -> call_failed F
| cf_hash : forall l, f_hash F l = true -> call_failed F
| cf_derive : f_derive F = true -> call_failed F
| cf_pub : f_pub F = true -> call_failed F
| cf_round : forall i b, f_round F i = Some b -> call_failed F
| cf_finish : f_finish F = true -> call_failed F.

(** cx_hmac_sha256 does not fail. *)
Definition hmac_works (F : faults) : Prop := forall key l, f_hmac F key l = None.

(** The status words reserved for it. *)
Definition fault_status (s : sw) : Prop :=
  s = SW_HASHER_ERROR \/ s = SW_INTERNAL_CRYPTO_ERROR \/
  s = SW_ADDRESS_GENERATION_FAILED \/ s = SW_SCHNORR_SIGNING_FAILED.

(** Draws of the random generator of which some were of no use: a draw was thrown away,
    or a round ended before drawing.  A zero draw is one the device rejects. *)
Inductive redrawn : list bytes -> list bytes -> Prop :=
| rd_same : forall l, redrawn l l
| rd_keep : forall x l l', redrawn l l' -> redrawn (x :: l) (x :: l')
| rd_thrown : forall x l l', redrawn l l' -> redrawn (x :: l) (repeat 0 32 :: l')
| rd_skipped : forall l l', redrawn l l' -> redrawn l (repeat 0 32 :: l').

(** The same event, up to useless draws. *)
Inductive same_event : event -> event -> Prop :=
| se_refl : forall e, same_event e e
| se_apdu : forall cla ins p1 p2 data l l' ids, redrawn l l' ->
    same_event (Apdu cla ins p1 p2 data (mk_rnd l ids)) (Apdu cla ins p1 p2 data (mk_rnd l' ids)).

(** Nothing is left of the command in progress; the session key and the remembered
    application stay. *)
Definition dropped (st st' : state) : Prop :=
  st_ctx st' = X_NONE /\ st_busy st' = false /\ st_key st' = st_key st /\ st_connected st' = st_connected st.

(** [fhistory E key tr st]: as [history] (SpecTrace.v), with calls that fail.  Each event
    comes with what goes wrong in it. *)
Inductive fhistory (E : env) (key : bytes) : list (faults * obs) -> state -> Prop :=
| fhistory_start : fhistory E key [] (init key)
| fhistory_step : forall tr st F e outs st',
    fhistory E key tr st -> stack_ok F -> hmac_works F -> event_ok e ->
    fstep E F st e = (st', outs) -> ~ In ODiverge outs ->
    fhistory E key (tr ++ [(F, (e, outs))]) st'.

(** An event with failing calls, and what stands for it in a device in which no call
    fails: the same event with the same outputs, or, for an error of the kind above,
    some event refused. *)
Inductive shadow : faults * obs -> obs -> Prop :=
| shadow_same : forall F e e' outs, same_event e e' -> (e' = e \/ call_failed F) ->
    shadow (F, (e, outs)) (e', outs)
| shadow_refused : forall F e e' s s', call_failed F -> fault_status s -> s' <> SW_OK ->
    shadow (F, (e, [OResp [] s])) (e', [OResp [] s']).
