(** When a page of a question cannot be computed. *)
From Verif Require Import Lib Gve CodecProofs Env SpecVlq Bip32 TxTable UiFlow P2pkOp App SpecText SpecTree SpecTrace SpecTx SpecAmounts SpecApdu
  SpecScreen SpecRequest SpecSign SpecPages SpecRules SpecAccept SpecStart Moves SignInv SignInput SignRest SignShow TraceSign
  TraceScreen TraceShow TraceUb SessionProofs AcceptProofs StartAccept OpenAccept StatusTrace HostAttest HostSign HostRun SpecHost SpecWallet.

#[local] Arguments N.eqb : simpl never.
#[local] Arguments N.ltb : simpl never.
#[local] Arguments N.leb : simpl never.
#[local] Arguments N.sub : simpl never.
#[local] Arguments blen : simpl never.
#[local] Arguments num : simpl never.
#[local] Arguments slice : simpl never.

Lemma output_fails : forall E key tr st q f pages start body s, env_ok E -> history E key tr st -> on_screen tr = Some (q, U_STX_OUTPUT, f, pages) ->
  session_of INS_SIGN tr = Some (start, body) -> In (Fail s) pages ->
  exists o path t, In o (sx_outputs (description body)) /\ so_dest o = Some (SD_CHANGE path) /\ is_path_text path t /\ (70 <= length t)%nat.
Proof.
  intros E key tr st q f pages start body s Henv Hh P1 Se Pin.
  destruct (shown_output _ _ _ _ _ _ _ Henv Hh P1) as (start' & body' & pre & o & S1 & S2 & _ & (dest & first & rest & D1 & -> & D2 & D3)).
  rewrite Se in S1. injection S1 as <- <-. destruct Pin as [K|K].
  - subst first. destruct dest as [t| |p]; cbn in D2.
    + exfalso. destruct D2 as [(pk & _ & K)|[(h & _ & K)|(_ & _ & K)]]; eapply address_page_ub; exact K.
    + discriminate.
    + destruct D2 as (full & F1 & [[_ F2]|[F2 F3]]); [discriminate|]. exists o, p, full. split; [rewrite S2; apply in_or_app; right; left; reflexivity|]. auto.
  - exfalso. destruct dest as [t| |p]; [| |subst; destruct K]; destruct D3 as (second & tokens & -> & (x & _ & Hs) & Ht); (destruct K as [K|K]; [congruence|]);
      destruct (token_pages_in _ _ _ _ _ _ Ht K) as (id & y & _ & z & _ & X); discriminate.
Qed.

Lemma confirm_first : forall E key tr st q f first rest s, env_ok E -> history E key tr st -> on_screen tr = Some (q, U_STX_TX, f, first :: rest) -> first <> Fail s.
Proof.
  intros E key tr st q f first rest s Henv Hh P1 Hf.
  destruct (paged_session _ _ _ _ _ _ _ _ Henv Hh P1 (or_intror eq_refl)) as (g & start & body & ss & X1 & X2 & X3 & X4 & X5 & X6 & X7 & X8 & X9 & X10 & X11).
  assert (Pf : page_of E U_STX_TX (X_SIGN g) 0 = Fail s).
  { unfold pages_of in X10. destruct (N.to_nat (page_count U_STX_TX (sg_op g))) as [|n]; [discriminate X10|]. rewrite <- Hf. clear - X10. cbn in X10. cbn [page_of]. congruence. }
  cbn [page_of] in Pf. unfold display_tx_page in Pf. cbv zeta in Pf. change (0 <? 1) with true in Pf. cbv iota in Pf.
  unfold p2pk_show_tx_screen in Pf. change (0 =? 0) with true in Pf. cbn [negb] in Pf.
  unfold sign_phase in X8. rewrite X2 in X8. destruct X8 as (_ & h & _ & (((F1 & F2 & F3) & _) & _)).
  destruct X5 as (p2 & data & r & fl & sk & ch & pk & w & -> & O2 & Ev & Ep & _ & V & Lp & _).
  apply session_suffix in X4 as (pre & -> & _ & _).
  assert (Hh' : history E key ((pre ++ [(Apdu CLA INS_SIGN 1 p2 data r, [OShow U_STX_APPROVE fl []])]) ++ body) st) by (rewrite <- app_assoc; exact Hh).
  destruct (history_prefix _ _ _ _ _ Hh') as (q1 & Hq). apply history_last in Hq as (q0 & Hq0 & _ & Hev & Hst & _).
  pose proof (proj1 (accepts_sign E key pre q0 p2 data r Henv Hq0 Hev)) as A. rewrite Hst in A. destruct (A eq_refl) as (_ & _ & _ & _ & Ap & Al & _ & _ & Fits & _). clear A.
  assert (Lp1 : (1 <= length (start_path data) <= 10)%nat). { split; [|exact Al]. destruct (start_path data); [|cbn; lia]. destruct Ap as (? & ? & ? & ? & Ap & _). discriminate Ap. }
  assert (W : Forall (fun x => x < 2 ^ 32) (start_path data)) by (apply (path_words 1 data); apply Hev).
  assert (F70 : path_fits 70 (start_path data)).
  { destruct Fits as (full & T & [L|(L & a & c & Ec & C & La)]); exists full; (split; [exact T|]); [left; lia|right; split; [exact L|]; exists a, c; split; [exact Ec|split; [exact C|lia]]]. }
  apply (path_fits_iff 70 (start_path data) Lp1 W) in F70 as [t F70].
  assert (Eo : op_path (sg_op g) = start_path data) by congruence. rewrite Eo in Pf. change Format.TEXT_LEN with 70%nat in Pf. rewrite F70 in Pf. discriminate.
Qed.
Lemma confirm_fails : forall E key tr st q f pages start body s, env_ok E -> history E key tr st -> on_screen tr = Some (q, U_STX_TX, f, pages) ->
  session_of INS_SIGN tr = Some (start, body) -> In (Fail s) pages -> exists id, balance (description body) id = (- 2 ^ 63)%Z.
Proof.
  intros E key tr st q f pages start body s Henv Hh P1 Se Pin.
  destruct (shown_confirm _ _ _ _ _ _ _ Henv Hh P1) as (start' & body' & S1 & (f0 & f1 & f2 & tokens & Ep & Hf & (x & _ & Hx) & (y & _ & Hy) & Hk)).
  rewrite Se in S1. injection S1 as <- <-. rewrite Ep in P1, Pin. destruct Pin as [K|[K|[K|K]]].
  - destruct (confirm_first _ _ _ _ _ _ _ _ s Henv Hh P1 K).
  - congruence.
  - congruence.
  - destruct (token_pages_in _ _ _ _ _ _ Hk K) as (id & z & A & B). exists id. unfold imbalance in B. destruct (balance (description body) id =? - 2 ^ 63)%Z eqn:Eb; [apply Z.eqb_eq; exact Eb|]. destruct B as (n & _ & B). discriminate.
Qed.

(** A change output stays one while the description grows. *)
Definition has_change (d : s_tx) (path : list N) : Prop := In (Some (SD_CHANGE path)) (map so_dest (sx_outputs d)).
Lemma upd_last_snoc : forall A (f : A -> A) l x, upd_last f (l ++ [x]) = l ++ [f x].
Proof. intros A f l x. induction l as [|y l IH]; [reflexivity|]. destruct l as [|z l]; [reflexivity|]. change (y :: upd_last f ((z :: l) ++ [x]) = y :: (z :: l) ++ [f x]). rewrite IH. reflexivity. Qed.
Lemma change_upd : forall f d path, has_change d path ->
  (forall o, current_output d o -> so_dest o = Some (SD_CHANGE path) -> so_dest (f o) = Some (SD_CHANGE path)) -> has_change (on_outputs (upd_last f) d) path.
Proof.
  intros f d path H K. unfold has_change in *. cbn [on_outputs sx_outputs]. destruct (snoc_cases _ (sx_outputs d)) as [En|(l & x & En)]; rewrite En in *; [destruct H|].
  rewrite upd_last_snoc, map_app in *. apply in_app_or in H as [H|[H|[]]]; apply in_or_app; [left; exact H|right; left]. apply K; [exists l; exact En|exact H].
Qed.
Lemma current_fun : forall d o o', current_output d o -> current_output d o' -> o = o'.
Proof. intros d o o' (a & A) (b & B). rewrite A in B. apply app_inj_tail in B as [_ B]. exact B. Qed.
Lemma change_stays : forall E key d sub data path, admissible E key d sub data -> has_change d path -> has_change (describe_cmd d sub data) path.
Proof.
  intros E key d sub data path [[-> _]|(h & _ & A)] H; [exact H|]. unfold describe_cmd.
  repeat match goal with |- context [match ?n with _ => _ end] => lazymatch n with sub => destruct n | _ => match type of n with positive => destruct n end end end; try exact H; try contradiction.
  all: try (destruct (num 33 1 data =? 0); exact H).
  all: try (apply change_upd; [exact H|]; intros o Ho Hd; try exact Hd).
  all: cbn [set_dest so_dest]; try (rewrite Hd; reflexivity).
  - destruct A as (_ & (o' & Ho' & N') & _). rewrite (current_fun _ _ _ Ho Ho') in Hd. congruence.
  - unfold has_change in *. cbn [on_outputs sx_outputs]. rewrite map_app. apply in_or_app. left. exact H.
  - destruct A as ((o' & Ho' & N') & _). rewrite (current_fun _ _ _ Ho Ho') in Hd. congruence.
Qed.
Lemma change_after : forall E key cs d path, chain describe_cmd (admissible E key) d cs -> has_change d path -> has_change (after describe_cmd d cs) path.
Proof.
  intros E key. induction cs as [|c cs IH]; intros d path Ch H; [exact H|]. destruct Ch as [C1 C2]. apply IH; [exact C2|]. eapply change_stays; eassumption.
Qed.
Lemma strip_has_change : forall d path, has_change (strip d) path <-> has_change d path.
Proof. intros d path. unfold has_change. cbn [strip on_outputs sx_outputs]. rewrite map_map. reflexivity. Qed.
Lemma strip_balance : forall d id, balance (strip d) id = balance d id.
Proof. intros d id. unfold balance. rewrite strip_tokens. reflexivity. Qed.

Lemma output_clean : forall E key w tr st q f pages start body cs s, env_ok E -> displayable E w -> history E key tr st -> on_screen tr = Some (q, U_STX_OUTPUT, f, pages) ->
  session_of INS_SIGN tr = Some (start, body) -> chain describe_cmd (admissible E key) (strip (description body)) cs -> after describe_cmd (strip (description body)) cs = wanted E w ->
  ~ In (Fail s) pages.
Proof.
  intros E key w tr st q f pages start body cs s Henv [Dp _] H Sc Se Ch Af K. destruct (output_fails _ _ _ _ _ _ _ _ _ _ Henv H Sc Se K) as (o & path & t & O1 & O2 & O3 & O4).
  assert (C : has_change (strip (description body)) path) by (apply strip_has_change; unfold has_change; rewrite <- O2; apply in_map; exact O1).
  apply (change_after E key cs) in C; [|exact Ch]. rewrite Af in C. unfold has_change in C. cbn [wanted sx_outputs] in C. rewrite map_map in C. apply in_map_iff in C as (x & Ex & Hx). cbn [wanted_output so_dest] in Ex.
  apply (proj1 (Forall_forall _ _) Dp) in Hx. assert (wo_dest x = SD_CHANGE path) as Ed by congruence. rewrite Ed in Hx. specialize (Hx t O3). lia.
Qed.
Lemma confirm_clean : forall E key w tr st q f pages start body s, env_ok E -> displayable E w -> history E key tr st -> on_screen tr = Some (q, U_STX_TX, f, pages) ->
  session_of INS_SIGN tr = Some (start, body) -> strip (description body) = wanted E w -> ~ In (Fail s) pages.
Proof.
  intros E key w tr st q f pages start body s Henv [_ Dp] H Sc Se Ed K. destruct (confirm_fails _ _ _ _ _ _ _ _ _ _ Henv H Sc Se K) as (id & B). rewrite <- strip_balance, Ed in B. exact (Dp id B).
Qed.
