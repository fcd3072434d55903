(** A wallet talking to the toy device, for the examples. *)
From Verif Require Import Lib Env UiFlow P2pkOp App SpecTx SpecTrace SpecApdu SpecScreen SpecSign SpecRules SpecRequest SpecStart Toy Wire SpecWire
  Buttons SpecButtons ButtonToy Whole SpecWhole WholeToy SpecAmounts SpecText TextProofs SpecHost SpecWallet WalletRun PropHost.

Definition PLAN : plan := mk_plan BIG_TX 1 START61.
(** The next action: a packet if no answer is due, else left until Approve is displayed, then
    both buttons. *)
Definition next_act (s : wallet) (due : bool) (seen : option (card * nat)) : option act :=
  if due then Some (Presses (match seen with Some (C_APPROVE, O) => BOTH | _ => LEFT end))
  else match next_packet PLAN s with Some packet => Some (Arrives packet RND) | None => None end.
Definition packet_ok (a : act) : bool := match a with Arrives packet _ => (blen packet <=? 260) && bytes_ok packet | Presses _ => true end.
Definition unrefused (a : act) (seen : option (card * nat)) (l : list wire_out) : bool :=
  match a with
  | Arrives _ _ => true
  | Presses b => match SpecWhole.packets l with [] => true | _ => match b, seen with BOTH, Some (C_APPROVE, O) => true | _, _ => false end end
  end.
Fixpoint converse (n : nat) (w : whole) (s : wallet) (due : bool) : option (list moment * whole * wallet * bool) :=
  match n with
  | O => Some ([], w, s, due)
  | S n =>
      match next_act s due (displayed (wh_dev w)) with
      | None => None
      | Some a =>
          let '(w1, l) := whole_step toy toy_ux w a in
          if packet_ok a && quiet l && unrefused a (displayed (wh_dev w)) l then
            let '(s1, due1) := listened PLAN s (match a with Arrives _ _ => true | Presses _ => due end) (SpecWhole.packets l) in
            match converse n w1 s1 due1 with
            | Some (tr, w2, s2, due2) => Some (mk_moment a (SpecWhole.packets l) (displayed (wh_dev w1)) :: tr, w2, s2, due2)
            | None => None
            end
          else None
      end
  end.

Lemma plan_request : sign_request_ok toy 1 START61 RND.
Proof. exact (proj1 (proj2 C61_ex)). Qed.
Lemma converse_talks : forall n w0 tr0 tr w s due tr' w' s' due',
  goes_on toy toy_ux w0 (tr0 ++ tr) w -> talks toy PLAN tr0 tr s due -> chats toy PLAN tr0 tr s due -> converse n w s due = Some (tr', w', s', due') ->
  goes_on toy toy_ux w0 (tr0 ++ tr ++ tr') w' /\ talks toy PLAN tr0 (tr ++ tr') s' due' /\ chats toy PLAN tr0 (tr ++ tr') s' due'.
Proof.
  induction n as [|n IH]; intros w0 tr0 tr w s due tr' w' s' due' G T T2 C; cbn [converse] in C.
  - assert (tr' = []) as -> by congruence. assert (w' = w) as -> by congruence. assert (s' = s) as -> by congruence. assert (due' = due) as -> by congruence. rewrite app_nil_r. auto.
  - destruct (next_act s due (displayed (wh_dev w))) as [a|] eqn:Na; [|discriminate C]. destruct (whole_step toy toy_ux w a) as [w1 l] eqn:Hs.
    destruct (packet_ok a && quiet l && unrefused a (displayed (wh_dev w)) l) eqn:B; [|discriminate C]. apply andb_true_iff in B as [B B3]. apply andb_true_iff in B as [B1 B2].
    destruct (listened PLAN s _ (SpecWhole.packets l)) as [s1 due1] eqn:Li. destruct (converse n w1 s1 due1) as [[[[tr2 w2] s2] due2]|] eqn:C2; [|discriminate C].
    set (m := mk_moment _ _ _) in C. assert (tr' = m :: tr2) as -> by congruence. assert (w' = w2) as -> by congruence. assert (s' = s2) as -> by congruence. assert (due' = due2) as -> by congruence.
    assert (Es : tr ++ m :: tr2 = (tr ++ [m]) ++ tr2) by (rewrite <- app_assoc; reflexivity). rewrite Es. eapply IH; [| | |exact C2].
    + rewrite app_assoc. subst m. eapply goes_on_more; [exact G| |exact Hs|apply (quiet_ok _ _ B2); auto|apply (quiet_ok _ _ B2); auto].
      unfold next_act in Na. destruct due; [assert (a = Presses (match displayed (wh_dev w) with Some (C_APPROVE, O) => BOTH | _ => LEFT end)) as -> by congruence; exact I|].
      destruct (next_packet PLAN s) as [packet|]; [|discriminate Na]. assert (a = Arrives packet RND) as -> by congruence. cbn [packet_ok] in B1. apply andb_true_iff in B1 as [B1 B1'].
      cbn [act_ok wire_ok]. split; [exact B1'|]. split; [apply N.leb_le; exact B1|]. split; repeat constructor.
    + subst m. destruct a as [packet r|b].
      * unfold next_act in Na. destruct due; [discriminate Na|]. destruct (next_packet PLAN s) as [packet'|] eqn:Np; [|discriminate Na]. assert (packet' = packet) as -> by congruence. assert (r = RND) as -> by congruence.
        apply (talks_send _ _ _ _ _ _ _ _ _ _ _ T Np); [|exact Li]. destruct s as [got [|x todo]| | | |]; try exact I; [exact plan_request|].
        destruct plan_request as (_ & _ & _ & _ & _ & _ & _ & _ & K). exact K.
      * apply (talks_press _ _ _ _ _ _ _ _ _ _ _ T); [|exact Li]. intro Nn. cbn [unrefused] in B3. destruct (SpecWhole.packets l); [contradiction|]. destruct b; try discriminate B3. split; [reflexivity|].
        intro K. pose proof (goes_shown _ _ _ _ _ _ G K) as Q. rewrite <- Q in B3. discriminate B3.
    + subst m. destruct a as [packet r|b].
      * unfold next_act in Na. destruct due; [discriminate Na|]. destruct (next_packet PLAN s) as [packet'|] eqn:Np; [|discriminate Na]. assert (packet' = packet) as -> by congruence. assert (r = RND) as -> by congruence.
        apply (chats_send _ _ _ _ _ _ _ _ _ _ _ T2 Np); [|exact Li]. destruct s as [got [|x todo]| | | |]; try exact I; [exact plan_request|].
        destruct plan_request as (_ & _ & _ & _ & _ & _ & _ & _ & K). exact K.
      * apply (chats_press _ _ _ _ _ _ _ _ _ _ _ T2); [|exact Li]. intros [-> K]. pose proof (goes_shown _ _ _ _ _ _ G K) as Q. unfold next_act in Na. rewrite <- Q in Na.
        destruct due; [discriminate Na|]. destruct (next_packet PLAN s); discriminate Na.
Qed.

Lemma converse_starts : forall n w0 tr0 w tr' w' s' due', goes_on toy toy_ux w0 tr0 w -> converse n w (at_first PLAN) false = Some (tr', w', s', due') ->
  goes_on toy toy_ux w0 (tr0 ++ tr') w' /\ talks toy PLAN tr0 tr' s' due' /\ chats toy PLAN tr0 tr' s' due'.
Proof. intros n w0 tr0 w tr' w' s' due' G C. apply (converse_talks n w0 tr0 [] w (at_first PLAN) false tr' w' s' due'); [rewrite app_nil_r; exact G|constructor|constructor|exact C]. Qed.

Definition trace_of (x : option (list moment * whole * wallet * bool)) : list moment := match x with Some (tr, _, _, _) => tr | None => [] end.
Definition with_signature (x : option (list moment * whole * wallet * bool)) : bool :=
  match x with Some (_, _, WA_SIGNED sig, false) => Nat.eqb (length sig) 56 | _ => false end.
Definition talk_of (n : nat) (w : whole) : list moment := trace_of (converse n w (at_first PLAN) false).
Lemma talk_of_talks : forall n w0 tr0 w, goes_on toy toy_ux w0 tr0 w -> with_signature (converse n w (at_first PLAN) false) = true ->
  exists w' sig, goes_on toy toy_ux w0 (tr0 ++ talk_of n w) w' /\ talks toy PLAN tr0 (talk_of n w) (WA_SIGNED sig) false /\ chats toy PLAN tr0 (talk_of n w) (WA_SIGNED sig) false /\ length sig = 56%nat.
Proof.
  intros n w0 tr0 w G K. unfold talk_of. destruct (converse n w (at_first PLAN) false) as [[[[tr w'] s] due]|] eqn:C; [|discriminate K]. destruct s as [| | |sig|]; try discriminate K. destruct due; [discriminate K|].
  cbn [trace_of]. exists w', sig. destruct (converse_starts n w0 tr0 w tr w' _ _ G C) as (G' & T' & T2'). split; [exact G'|]. split; [exact T'|]. split; [exact T2'|apply PeanoNat.Nat.eqb_eq; exact K].
Qed.

(** The device after a run cut off and a run with a signature made; then the talk. *)
Definition EARLIER : list moment * whole := lived SECOND_POWER (TO_CONFIRM ++ [Press LEFT; Press LEFT; Press BOTH]).
Notation TALKED := (talk_of 45 (snd EARLIER)).
Lemma earlier_goes : goes_on toy toy_ux SECOND_POWER (fst EARLIER) (snd EARLIER).
Proof. apply lived_goes. Qed.
Lemma talked_signed : with_signature (converse 45 (snd EARLIER) (at_first PLAN) false) = true.
Proof. vm_compute. reflexivity. Qed.
Lemma talked_talks : exists w sig, goes_on toy toy_ux SECOND_POWER (fst EARLIER ++ TALKED) w /\ talks toy PLAN (fst EARLIER) TALKED (WA_SIGNED sig) false /\ chats toy PLAN (fst EARLIER) TALKED (WA_SIGNED sig) false /\ length sig = 56%nat.
Proof. exact (talk_of_talks 45 SECOND_POWER (fst EARLIER) (snd EARLIER) earlier_goes talked_signed). Qed.
Definition TALK_LIFE : list (bytes * list moment) := [(TOY_KEY, fst EARLIER ++ TALKED)].
Lemma one_life : forall mem page io key tr w, blen io = 260 -> goes_on toy toy_ux (power_on mem page io key) tr w -> lifetime toy toy_ux [(key, tr)].
Proof. intros mem page io key tr w L G. exact (lifetime_run toy toy_ux [] _ _ _ key tr w (lifetime_new _ _) L G). Qed.
Lemma second_life : forall tr w, goes_on toy toy_ux SECOND_POWER tr w -> lifetime toy toy_ux [(TOY_KEY, tr)].
Proof. intros tr w G. exact (one_life _ _ _ _ tr w first_io G). Qed.
Lemma talk_life : lifetime toy toy_ux TALK_LIFE.
Proof. destruct talked_talks as (w & sig & G & _). exact (second_life _ w G). Qed.

(** A talk with a question open. *)
Definition with_question (x : option (list moment * whole * wallet * bool)) : bool :=
  match x with Some (_, w, _, true) => match displayed (wh_dev w) with Some (C_REJECT, O) => true | _ => false end | _ => false end.
Lemma talk_of_open : forall n w0 tr0 w, goes_on toy toy_ux w0 tr0 w -> with_question (converse n w (at_first PLAN) false) = true ->
  exists w' s, goes_on toy toy_ux w0 (tr0 ++ talk_of n w) w' /\ talks toy PLAN tr0 (talk_of n w) s true /\ displayed (wh_dev w') = Some (C_REJECT, O).
Proof.
  intros n w0 tr0 w G K. unfold talk_of. destruct (converse n w (at_first PLAN) false) as [[[[tr w'] s] due]|] eqn:C; [|discriminate K]. cbn [with_question] in K. destruct due; [|discriminate K].
  cbn [trace_of]. exists w', s. destruct (converse_starts n w0 tr0 w tr w' _ _ G C) as (G' & T' & _). split; [exact G'|]. split; [exact T'|]. destruct (displayed (wh_dev w')) as [[[] [|n']]|]; try discriminate K. reflexivity.
Qed.
Notation TALKING := (talk_of 43 (snd EARLIER)).
Lemma talking_open : exists w s, goes_on toy toy_ux SECOND_POWER (fst EARLIER ++ TALKING) w /\ talks toy PLAN (fst EARLIER) TALKING s true /\ displayed (wh_dev w) = Some (C_REJECT, O).
Proof. apply (talk_of_open 43 SECOND_POWER (fst EARLIER) (snd EARLIER) earlier_goes). vm_compute. reflexivity. Qed.

(** Its transaction can be displayed. *)
Lemma amount_total : forall id l, amount_of id l <= total (map snd l).
Proof. intros id. induction l as [|x l IH]; unfold amount_of in *; cbn [filter map]; [reflexivity|]. destruct (bytes_eqb _ _); cbn [map total fold_right]; unfold total in *; lia. Qed.
Lemma plan_displayable : displayable toy (pl_tx PLAN).
Proof.
  split.
  - assert (P : is_path_text ADDRESS0 (concat (pieces ADDRESS0))) by (apply pieces_text; [discriminate|repeat constructor]).
    constructor; [exact I|]. constructor; [exact I|]. constructor; [|constructor]. cbn [wo_dest]. intros t Ht. rewrite (is_path_text_fun _ _ Ht _ P). vm_compute. lia.
  - intros id K. pose proof (amount_total id (output_tokens (wanted toy (pl_tx PLAN)))) as L. assert (T : total (map snd (output_tokens (wanted toy (pl_tx PLAN)))) = 1002) by (vm_compute; reflexivity).
    rewrite T in L. unfold balance in K. lia.
Qed.
