(** Lives of the whole device, by what can be seen from outside: packets and the display. *)
From Verif Require Import Base Env UiFlow App SpecTx SpecTrace ReadApp SpecRaw Wire SpecWire Restart Buttons SpecButtons Whole.

(** What was done to the device, the packets it sent then, and what it displayed afterwards. *)
Record moment := mk_moment { mo_act : act; mo_sent : list bytes; mo_shown : option (card * nat) }.
Definition packets (l : list wire_out) : list bytes := flat_map (fun o => match o with Packet p => [p] | Screen _ => [] end) l.
Definition act_ok (a : act) : Prop := match a with Arrives packet r => wire_ok (Receive packet r) | Presses _ => True end.
(** A run; it ends where the device hangs (C36) or its program is undefined (C53). *)
Inductive goes_on (E : env) (U : ux) (w0 : whole) : list moment -> whole -> Prop :=
| goes_on_start : goes_on E U w0 [] w0
| goes_on_more : forall tr w a w' l, goes_on E U w0 tr w -> act_ok a -> whole_step E U w a = (w', l) ->
    ~ In (Screen ODiverge) l -> ~ In (Screen OUb) l ->
    goes_on E U w0 (tr ++ [mk_moment a (packets l) (displayed (wh_dev w'))]) w'.
(** The runs of a life, each with the session key drawn at its start; a run may be cut off at
    any time, and memory then holds anything. *)
Inductive lifetime (E : env) (U : ux) : list (bytes * list moment) -> Prop :=
| lifetime_new : lifetime E U []
| lifetime_run : forall runs mem page io key tr w, lifetime E U runs -> blen io = 260 ->
    goes_on E U (power_on mem page io key) tr w -> lifetime E U (runs ++ [(key, tr)]).

(** A moment of such a run and an action on the device of SpecButtons, as seen from outside:
    the packet spells out the command, and the packets sent are those of the answers. *)
Definition understood (a : act) : action :=
  match a with Arrives packet r => Host (command_of packet r) | Presses b => Press b end.
Definition answer_packets (x : deed) : list bytes :=
  packets (map on_the_wire (concat (map snd (snd x)))).
Definition tells_of (E : env) (U : ux) (key : bytes) (tr : list moment) (l : list deed) : Prop :=
  map (fun m => understood (mo_act m)) tr = map fst l /\ map mo_sent tr = map answer_packets l /\
  forall n m, nth_error tr n = Some m -> exists d, operated E U key (firstn (S n) l) d /\ mo_shown m = displayed d.

(** Part [p] of card [c] was displayed in [tr]. *)
Definition was_shown (tr : list moment) (c : card) (p : nat) : Prop := exists m, In m tr /\ mo_shown m = Some (c, p).
(** What was displayed last. *)
Definition shown_last (tr : list moment) (x : option (card * nat)) : Prop := exists tr0 m, tr = tr0 ++ [m] /\ mo_shown m = x.
(** The command [q] came and was not answered at once, and no press was answered since; and
    since then Reject was displayed, or else every card of the question was, with all its
    parts. *)
Definition read_all (U : ux) (tr : list moment) (q : event) (f : flow) (pages : list page) : Prop :=
  exists tr1 m tr2, tr = tr1 ++ m :: tr2 /\ understood (mo_act m) = Host q /\ mo_sent m = [] /\
    Forall (fun x => match mo_act x with Presses _ => mo_sent x = [] | Arrives _ _ => True end) tr2 /\
    (was_shown (m :: tr2) C_REJECT 0 \/
     forall oc, In oc (cards f pages) -> exists c, oc = Some c /\ (c = C_REJECT \/ forall p, (p <= extra U c)%nat -> was_shown (m :: tr2) c p)).
(** An action on the device of SpecButtons as something done to the whole device. *)
Definition done_by (a : action) : act :=
  match a with
  | Host e => match spoken e with Receive packet r => Arrives packet r | _ => Arrives [] (mk_rnd [] []) end
  | Press b => Presses b
  end.
