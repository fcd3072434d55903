(** A time in which no call into the operating system fails. *)
From Verif Require Import Base Env Fault App LowApp SpecTrace SpecFault.

(** In this event no call fails; what the arrays hold before they are written to may be
    anything. *)
Definition works (F : faults) : Prop := stack_ok F /\ hmac_works F /\ ~ call_failed F.
(** After [tr], in which calls may have failed, the device goes through [l] to the state
    [st] if from then on none fails. *)
Definition then_calm (E : env) (key : bytes) (tr : list (faults * obs)) (l : list obs) (st : state) : Prop :=
  forall Fs, Forall works Fs -> length Fs = length l -> fhistory E key (tr ++ combine Fs l) st.
