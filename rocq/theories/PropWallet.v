(** C75: a wallet at the other end of the cable. *)
From Verif Require Import Lib Env UiFlow App SpecTx SpecTrace SpecApdu SpecScreen SpecSign SpecRules SpecRequest SpecStart Toy Wire SpecWire Buttons SpecButtons ButtonToy Whole SpecWhole WholeToy SpecHost SpecWallet WalletRun PropHost WalletToy.

(** C75.  After any runs, and anything in this run, once every command is answered: a wallet
    that follows the documents, for any transaction within the limits, attesting each input
    and signing, and a user who presses what they like but does not refuse.  At each moment
    the wallet has the signature of that very transaction by the key of the path, with a nonce
    drawn when it asked (or was told that there is none, the challenge being zero); or no
    answer was an error, and it knows which packet to send next. *)
Theorem C75_safe : forall E U runs key p tr0 tr s due, env_ok E -> lifetime E U runs -> In (key, tr0 ++ tr) runs -> all_answered tr0 -> tx_fits E (pl_tx p) ->
  talks E p tr0 tr s due -> good_end E p tr s \/ exists packet, next_packet p s = Some packet.
Proof. exact wallet_safe. Qed.
Print Assumptions C75_safe.
(** A run on memory left by another, with a signature made; then the wallet gets the sample
    transaction of C61 signed, with two attestations: 45 packets and presses. *)
Example C75_safe_ex : env_ok toy /\ lifetime toy toy_ux TALK_LIFE /\ In (TOY_KEY, fst EARLIER ++ TALKED) TALK_LIFE /\ all_answered (fst EARLIER) /\ tx_fits toy (pl_tx PLAN) /\
  exists sig, talks toy PLAN (fst EARLIER) TALKED (WA_SIGNED sig) false /\ length sig = 56%nat /\ (length (fst EARLIER), length TALKED) = (28, 45)%nat.
Proof.
  split; [exact toy_ok|]. split; [exact talk_life|]. split; [left; reflexivity|]. split; [vm_compute; reflexivity|]. split; [exact (proj1 (proj2 (proj2 C61_ex)))|].
  destruct talked_talks as (w & sig & _ & T & _ & L). exists sig. split; [exact T|]. split; [exact L|]. vm_compute. reflexivity.
Qed.

(** If every question can be displayed, the user may press what they like at any time, except
    both buttons while Reject is displayed: then they do not refuse in the sense above. *)
Theorem C75_free : forall E U runs key p tr0 tr s due, env_ok E -> lifetime E U runs -> In (key, tr0 ++ tr) runs -> all_answered tr0 -> tx_fits E (pl_tx p) -> displayable E (pl_tx p) ->
  chats E p tr0 tr s due -> talks E p tr0 tr s due.
Proof. exact wallet_free. Qed.
Print Assumptions C75_free.
Example C75_free_ex : lifetime toy toy_ux TALK_LIFE /\ In (TOY_KEY, fst EARLIER ++ TALKED) TALK_LIFE /\ displayable toy (pl_tx PLAN) /\ exists sig, chats toy PLAN (fst EARLIER) TALKED (WA_SIGNED sig) false.
Proof.
  split; [exact talk_life|]. split; [left; reflexivity|]. split; [exact plan_displayable|]. destruct talked_talks as (w & sig & _ & _ & T & _). exists sig. exact T.
Qed.

(** And the wallet gets there: whatever was said so far, a question open or not, if the device
    is up and the random source is good enough, the talk can go on to its end. *)
Theorem C75_reaches : forall E U mem page io key p tr0 tr w s due r, env_ok E -> blen io = 260 -> tx_fits E (pl_tx p) -> goes_on E U (power_on mem page io key) (tr0 ++ tr) w ->
  all_answered tr0 -> talks E p tr0 tr s due -> (due = true -> displayable E (pl_tx p)) -> displayed (wh_dev w) <> None ->
  act_ok (Arrives (opening p) r) -> sign_request_ok E (pl_p2 p) (pl_start p) r ->
  exists tr' w' s', goes_on E U (power_on mem page io key) (tr0 ++ tr ++ tr') w' /\ talks E p tr0 (tr ++ tr') s' false /\ good_end E p (tr ++ tr') s'.
Proof. exact wallet_reaches. Qed.
Print Assumptions C75_reaches.
(** From the same moment; and from the last question of that talk, with Reject displayed. *)
Example C75_reaches_ex : goes_on toy toy_ux SECOND_POWER (fst EARLIER ++ []) (snd EARLIER) /\ talks toy PLAN (fst EARLIER) [] (at_first PLAN) false /\
  displayed (wh_dev (snd EARLIER)) <> None /\ act_ok (Arrives (opening PLAN) RND) /\ sign_request_ok toy (pl_p2 PLAN) (pl_start PLAN) RND /\
  (exists w s, goes_on toy toy_ux SECOND_POWER (fst EARLIER ++ TALKING) w /\ talks toy PLAN (fst EARLIER) TALKING s true /\ displayed (wh_dev w) = Some (C_REJECT, O)) /\ displayable toy (pl_tx PLAN).
Proof.
  split; [rewrite app_nil_r; exact earlier_goes|]. split; [constructor|]. split; [vm_compute; discriminate|].
  split; [split; [vm_compute; reflexivity|]; split; [vm_compute; discriminate|]; split; repeat constructor|]. split; [exact plan_request|]. split; [exact talking_open|exact plan_displayable].
Qed.
