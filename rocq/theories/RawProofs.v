(** Commands in memory are the commands of SpecTrace. *)
From Verif Require Import Lib Env RwBuffer SpecBuffer RwBufferProofs UiFlow App SpecTrace ReadBuf ReadApp ReadProofs ReadAppProofs Moves FlowProofs SpecRaw.

#[local] Arguments N.eqb : simpl never.
#[local] Arguments N.ltb : simpl never.
#[local] Arguments N.leb : simpl never.
#[local] Arguments N.sub : simpl never.

Lemma init_valid : forall mem n, n <= blen mem -> n < 256 -> buffer_valid (buffer_init mem n) /\ unread (buffer_init mem n) = firstn (N.to_nat n) mem.
Proof.
  intros mem n H L. unfold buffer_init, rw_buffer_init. split.
  - unfold buffer_valid. cbn [rb_off rb_wpos rb_cap rb_mem]. lia.
  - unfold unread. cbn [rb_off rb_wpos rb_mem]. rewrite N.sub_0_r. reflexivity.
Qed.

Lemma raw_apdu_recv : forall E st io len r, bytes_ok (received io len) = true -> len <= blen io ->
  raw_apdu E st io len r = step E st (command_of (received io len) r).
Proof.
  intros E st io len r B H. unfold raw_apdu, received in *. destruct (N.ltb_spec len 5) as [L|L].
  - assert (Hl : (length (firstn (N.to_nat len) io) < 5)%nat) by (rewrite firstn_length; unfold blen in H; lia).
    destruct (firstn (N.to_nat len) io) as [|a [|b [|c [|d [|e l]]]]]; try reflexivity. cbn in Hl. lia.
  - destruct io as [|cla [|ins [|p1 [|p2 [|lc mem]]]]]; unfold blen in H; cbn [length] in H; try (exfalso; lia).
    rewrite mem_get_ok by (unfold blen; cbn [length]; lia). change (firstn (N.to_nat 5) (skipn (N.to_nat 0) (cla :: ins :: p1 :: p2 :: lc :: mem))) with [cla; ins; p1; p2; lc]. cbv iota.
    replace (N.to_nat len) with (5 + N.to_nat (len - 5))%nat by lia. cbn [Nat.add firstn command_of].
    assert (Hd : blen (firstn (N.to_nat (len - 5)) mem) = len - 5) by (unfold blen; rewrite firstn_length; lia).
    rewrite Hd. destruct (N.eqb_spec (len - 5) lc) as [Q|Q]; [|reflexivity]. cbn [negb step].
    assert (L256 : lc < 256).
    { replace (N.to_nat len) with (5 + N.to_nat (len - 5))%nat in B by lia. cbn [Nat.add firstn] in B. unfold bytes_ok in B. cbn [forallb] in B. rewrite !andb_true_iff in B. apply N.ltb_lt. apply B. }
    change (skipn 5 (cla :: ins :: p1 :: p2 :: lc :: mem)) with mem. rewrite Q.
    assert (M : lc <= blen mem) by (unfold blen; lia).
    destruct (N.eqb_spec lc 0) as [Z|Z].
    + destruct (init_valid [] lc) as [V U]; [unfold blen; cbn; lia|assumption|].
      rewrite dispatcher_ok, U; [subst lc; rewrite Z; reflexivity|exact V|rewrite U; rewrite firstn_nil; reflexivity].
    + destruct (init_valid mem lc M L256) as [V U].
      rewrite dispatcher_ok, U; [reflexivity|exact V|rewrite U, <- Q, Hd; lia].
Qed.

Lemma received_bytes : forall io len, bytes_ok io = true -> bytes_ok (received io len) = true.
Proof.
  intros io len B. unfold received, bytes_ok in *. rewrite forallb_forall in *. intros x Hx. apply B.
  rewrite <- (firstn_skipn (N.to_nat len) io). apply in_or_app. left. exact Hx.
Qed.
Lemma raw_apdu_ok : forall E st io len r, bytes_ok io = true -> len <= blen io ->
  raw_apdu E st io len r = step E st (command_of (received io len) r).
Proof. intros. apply raw_apdu_recv; [apply received_bytes|]; assumption. Qed.

Lemma raw_behind : forall E st io io' len r, bytes_ok io = true -> bytes_ok io' = true -> len <= blen io -> len <= blen io' ->
  received io len = received io' len -> raw_step E st (RawApdu io len r) = raw_step E st (RawApdu io' len r).
Proof.
  intros E st io io' len r B B' L L' H. cbn [raw_step]. rewrite !raw_apdu_ok by assumption. rewrite H. reflexivity.
Qed.

Lemma raw_step_ok : forall E st e, raw_ok e -> raw_step E st e = step E st (decoded e).
Proof. intros E st [io len r|e] H; [|reflexivity]. destruct H as (B & L & _). apply raw_apdu_ok; assumption. Qed.

Lemma decoded_ok : forall e, raw_ok e -> event_ok (decoded e).
Proof.
  intros [io len r|e] H.
  - destruct H as (B & L & R1 & R2). cbn [decoded].
    assert (B' : bytes_ok (received io len) = true).
    { unfold received, bytes_ok in *. rewrite forallb_forall in *. intros x Hx. apply B. rewrite <- (firstn_skipn (N.to_nat len) io). apply in_or_app. left. exact Hx. }
    destruct (received io len) as [|a [|b [|c [|d [|lc data]]]]]; try exact I. cbn [command_of].
    destruct (N.eqb_spec (blen data) lc) as [Q|Q]; [|exact I]. unfold bytes_ok in B'. cbn [forallb] in B'. unfold is_byte in B' at 1 2 3 4 5. rewrite !andb_true_iff, !N.ltb_lt in B'.
    destruct B' as (B1 & B2 & B3 & B4 & B5 & B6). unfold blen in Q. cbn [event_ok]. unfold bytes_ok. repeat (split; [assumption|]). split; [lia|]. auto.
  - cbn in H. destruct e; try contradiction; exact I.
Qed.

Lemma raw_decodes : forall E key tr st, raw_history E key tr st -> history E key (decode tr) st.
Proof.
  intros E key tr st H. induction H as [|tr st e outs st' H IH Ok S D]; [apply history_start|].
  unfold decode. rewrite map_app. apply (history_step E key _ st); [exact IH|apply decoded_ok; exact Ok| |exact D].
  cbn [fst]. rewrite <- raw_step_ok by exact Ok. exact S.
Qed.

Lemma encoded_ok : forall behind e, bytes_ok behind = true -> event_ok e -> raw_ok (encoded behind e) /\ decoded (encoded behind e) = e.
Proof.
  intros behind e B H. destruct e; try (split; [exact I|reflexivity]).
  - destruct H as (H1 & H2 & H3 & H4 & H5 & H6 & H7 & H8). cbn [encoded]. assert (Lc : blen data < 256) by (unfold blen; lia). split.
    + split; [|split; [|split; assumption]].
      * unfold bytes_ok in *. cbn [forallb]. rewrite forallb_app, H5, B. unfold is_byte. rewrite !andb_true_iff. rewrite !N.ltb_lt. auto 10.
      * unfold blen. cbn [length]. rewrite app_length. lia.
    + cbn [decoded]. unfold received. replace (N.to_nat (5 + blen data)) with (5 + length data)%nat by (unfold blen; lia).
      cbn [Nat.add firstn command_of]. rewrite firstn_app, Nat.sub_diag, firstn_all, firstn_O, app_nil_r, N.eqb_refl. reflexivity.
  - split; [|reflexivity]. cbn [encoded raw_ok]. split; [exact B|]. split; [unfold blen; lia|]. cbn. auto.
Qed.
Lemma decode_encode : forall behind E key tr st, bytes_ok behind = true -> history E key tr st ->
  raw_history E key (encode behind tr) st /\ decode (encode behind tr) = tr.
Proof.
  intros behind E key tr st B H. induction H as [|tr st e outs st' H IH Ok S D]; [split; [apply raw_start|reflexivity]|].
  destruct IH as [IH1 IH2]. destruct (encoded_ok behind e B Ok) as [R1 R2].
  unfold encode, decode in *. rewrite !map_app. cbn [map fst snd]. split.
  - apply (raw_next E key _ st); [exact IH1|exact R1| |exact D]. rewrite raw_step_ok, R2 by exact R1. exact S.
  - f_equal; [exact IH2|]. rewrite R2. reflexivity.
Qed.

Lemma raw_no_ub : forall E key tr st io len r outs, env_ok E -> raw_history E key (tr ++ [(RawApdu io len r, outs)]) st -> ~ In OUb outs.
Proof.
  intros E key tr st io len r outs He H. pose proof (raw_decodes _ _ _ _ H) as Hd. unfold decode in Hd. rewrite map_app in Hd. cbn [map fst snd decoded] in Hd.
  assert (C : (exists cla ins p1 p2 data, command_of (received io len) r = Apdu cla ins p1 p2 data r) \/ command_of (received io len) r = BadApdu).
  { destruct (received io len) as [|a [|b [|c [|d [|lc data]]]]]; cbn [command_of]; auto. destruct (blen data =? lc); eauto 8. }
  destruct C as [(cla & ins & p1 & p2 & data & C)|C]; rewrite C in Hd.
  - exact (no_command_ub E key _ st cla ins p1 p2 data r outs He Hd).
  - destruct (history_last _ _ _ _ _ _ Hd) as (st0 & _ & _ & _ & Hs & _). cbn [step] in Hs.
    assert (outs = [resp SW_WRONG_APDU_DATA_LENGTH]) as -> by congruence. intros [Q|[]]. discriminate Q.
Qed.
