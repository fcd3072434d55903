(** A computable environment and sample histories: the concrete cases shown beside the
    theorems.  The hash is a polynomial in 64-bit arithmetic and the group is the
    integers modulo the group order, so signatures verify here but nothing is secret. *)
From Verif Require Import Lib Env Schnorr UiFlow App SpecVlq SpecTrace SpecTx SpecApdu.

Definition toy_hash (l : bytes) : bytes :=
  let w := be_bytes 8 (fold_left (fun acc b => N.land (acc * 37 + b + 1) 0xffffffffffffffff) l 7) in w ++ w ++ w ++ w.
(** The multiple [k] of the generator, on 65 bytes; none for the neutral element. *)
Definition toy_point (k : N) : option bytes :=
  let k := k mod SECP256K1_N in
  if k =? 0 then None else Some (4 :: be_bytes 32 k ++ repeat 0 32).
Definition toy_key (p : list N) : N := 1 + (fold_left (fun acc x => acc * two32 + x) p 0) mod two64.
Definition toy : env := mk_env
  toy_hash
  (fun k l => toy_hash (k ++ l))
  (fun p => Some (be_bytes 32 (toy_key p), toy_hash (be_bytes 8 (toy_key p))))
  (fun k => toy_point (be_value k))
  26.

Lemma toy_hash_len : forall l, length (toy_hash l) = 32%nat.
Proof. intros. unfold toy_hash. cbv zeta. rewrite !app_length, !be_bytes_length. reflexivity. Qed.
Lemma toy_hash_ok : forall l, bytes_ok (toy_hash l) = true.
Proof. intros. unfold toy_hash. cbv zeta. rewrite !bytes_ok_app, !be_bytes_ok. reflexivity. Qed.
Lemma toy_ok : env_ok toy.
Proof.
  constructor; cbn [e_blake e_hmac e_derive e_mulG e_id_keep toy].
  - intros l. apply toy_hash_len.
  - intros l. apply toy_hash_ok.
  - intros k l. apply toy_hash_len.
  - intros k l. apply toy_hash_ok.
  - intros p s c H. apply (f_equal (fun x => match x with Some y => y | None => (s, c) end)) in H.
    pose proof (f_equal fst H) as H1. pose proof (f_equal snd H) as H2. cbn [fst snd] in H1, H2. rewrite <- H1, <- H2.
    split; [apply be_bytes_length|]. split; [apply toy_hash_len|]. split; [apply be_bytes_ok|apply toy_hash_ok].
  - intros s w H. unfold toy_point in H.
    match type of H with (if ?b then _ else _) = _ => destruct b end; [discriminate|]. apply (f_equal (fun x => match x with Some y => y | None => w end)) in H.
    rewrite <- H. split.
    + cbn [length]. rewrite app_length, be_bytes_length, repeat_length. reflexivity.
    + apply bytes_ok_cons. split; [lia|]. rewrite bytes_ok_app, be_bytes_ok. reflexivity.
  - left. reflexivity.
Qed.

(** ** Playing events *)

Definition event_okb (e : event) : bool :=
  match e with
  | Apdu cla ins p1 p2 data r =>
      (cla <? 256) && (ins <? 256) && (p1 <? 256) && (p2 <? 256) && bytes_ok data && (blen data <=? 255) &&
      forallb (fun k => (blen k =? 32) && bytes_ok k) (r_nonces r) && forallb (fun i => i <? 256) (r_ids r)
  | _ => true
  end.
Definition halts (outs : list output) : bool :=
  negb (existsb (fun o => match o with ODiverge => true | _ => false end) outs).
(** The history of a list of events, if the events are well-formed. *)
Fixpoint play (E : env) (st : state) (evs : list event) : option (list obs * state) :=
  match evs with
  | [] => Some ([], st)
  | e :: t =>
      let '(st', outs) := step E st e in
      if event_okb e && halts outs then
        match play E st' t with Some (tr, s) => Some ((e, outs) :: tr, s) | None => None end
      else None
  end.

Lemma event_okb_ok : forall e, event_okb e = true -> event_ok e.
Proof.
  intros [cla ins p1 p2 data r| | | | | | | |] H; try exact I. unfold event_okb in H. rewrite !andb_true_iff in H.
  destruct H as (((((((H1 & H2) & H3) & H4) & H5) & H6) & H7) & H8).
  apply N.ltb_lt in H1, H2, H3, H4. apply N.leb_le in H6. unfold event_ok.
  do 5 (split; [assumption|]). split; [unfold blen in H6; lia|]. rewrite forallb_forall in H7, H8. split; apply Forall_forall; intros x Hx.
  - specialize (H7 x Hx). apply andb_true_iff in H7 as [A B]. split; [apply N.eqb_eq in A; unfold blen in A; lia|exact B].
  - specialize (H8 x Hx). apply N.ltb_lt. exact H8.
Qed.
Lemma halts_ok : forall outs, halts outs = true -> ~ In ODiverge outs.
Proof.
  intros outs H K. unfold halts in H. apply negb_true_iff in H.
  assert (Z : existsb (fun o => match o with ODiverge => true | _ => false end) outs = true); [|congruence].
  apply existsb_exists. exists ODiverge. auto.
Qed.
Lemma play_more : forall E key evs tr st tr' st', history E key tr st -> play E st evs = Some (tr', st') ->
  history E key (tr ++ tr') st'.
Proof.
  induction evs as [|e evs IH]; intros tr st tr' st' H P; cbn [play] in P.
  - injection P as <- <-. rewrite app_nil_r. exact H.
  - destruct (step E st e) as [s1 outs] eqn:Es. destruct (event_okb e && halts outs) eqn:Ec; [|discriminate].
    apply andb_true_iff in Ec as [C1 C2]. destruct (play E s1 evs) as [[t s]|] eqn:Ep; [|discriminate]. injection P as <- <-.
    change ((e, outs) :: t) with ([(e, outs)] ++ t). rewrite app_assoc. eapply IH; eauto.
    econstructor; eauto; [apply event_okb_ok; exact C1|apply halts_ok; exact C2].
Qed.
Lemma play_history : forall E key evs tr st, play E (init key) evs = Some (tr, st) -> history E key tr st.
Proof. intros E key evs tr st H. apply (play_more E key evs [] (init key) tr st); [constructor|exact H]. Qed.

(** The history of some events in the toy environment. *)
Definition TOY_KEY : bytes := be_bytes 32 0x0102030405060708.
Definition trace (evs : list event) : list obs := match play toy (init TOY_KEY) evs with Some (tr, _) => tr | None => [] end.
Definition final (evs : list event) : state := match play toy (init TOY_KEY) evs with Some (_, s) => s | None => init [] end.
Definition playable (evs : list event) : bool := match play toy (init TOY_KEY) evs with Some _ => true | None => false end.
Lemma trace_history : forall evs, playable evs = true -> history toy TOY_KEY (trace evs) (final evs).
Proof.
  intros evs H. unfold playable, trace, final in *. destruct (play toy (init TOY_KEY) evs) as [[tr st]|] eqn:P; [|discriminate].
  apply (play_history toy TOY_KEY evs tr st P).
Qed.
(** Data of the last response. *)
Definition answer (evs : list event) : bytes :=
  match last (trace evs) (BadApdu, []) with (_, [OResp b _]) => b | _ => [] end.

(** ** Commands *)

Definition RND : rnd := mk_rnd [be_bytes 32 0xA1B2C3D4E5F60718293A] [0; 7].
Definition cmd_of (ins p1 p2 : N) (data : bytes) : event := Apdu CLA ins p1 p2 data RND.
Definition path_bytes (p : list N) : bytes := blen p :: concat (map (be_bytes 4) p).
Definition H' (n : N) : N := 0x80000000 + n.
Definition ACCOUNT0 : list N := [H' 44; H' 429; H' 0].
Definition ADDRESS0 : list N := ACCOUNT0 ++ [0; 0].

(** Attestation of a box with one token: start, approve, script, token, frame. *)
Definition TOKEN_A : bytes := repeat 0xAA 32.
Definition TOKEN_B : bytes := repeat 0xBB 32.
Definition BOX_TREE : bytes := [0x00; 0x08; 0xcd] ++ (3 :: repeat 5 32).
Definition attest_start (p2 : N) (tx_id : bytes) (index value tree_len height ntokens regs_len : N) (token : bytes) : event :=
  cmd_of INS_ATTEST 1 p2 (tx_id ++ be_bytes 2 index ++ be_bytes 8 value ++ be_bytes 4 tree_len ++ be_bytes 4 height ++
                          be_bytes 1 ntokens ++ be_bytes 4 regs_len ++ token).
Definition ATTEST : list event :=
  [ attest_start 1 (repeat 1 32) 2 1000000000 36 500 1 0 []; UiApprove;
    cmd_of INS_ATTEST 2 7 BOX_TREE;
    cmd_of INS_ATTEST 3 7 (TOKEN_A ++ be_bytes 8 1000) ].
Definition ATTEST_FRAME : list event := ATTEST ++ [cmd_of INS_ATTEST 5 7 [0]].
Definition FRAME : bytes := answer ATTEST_FRAME.

(** Signing: one input (the attested box), an output to an address with 400 of the
    token, the fee, and the rest as change (the token partly burnt). *)
Definition OTHER_TREE : bytes := [0x00; 0x08; 0xcd] ++ (2 :: repeat 9 32).
Definition sign_cmd (sub : N) (data : bytes) : event := cmd_of INS_SIGN sub 7 data.
Definition output_head (value tree_len height ntokens regs_len : N) : event :=
  sign_cmd 0x15 (be_bytes 8 value ++ be_bytes 4 tree_len ++ be_bytes 4 height ++ be_bytes 1 ntokens ++ be_bytes 4 regs_len).
Definition SIGN_START : list event :=
  [ cmd_of INS_SIGN 1 2 ([0] ++ path_bytes ADDRESS0 ++ be_bytes 4 0x11223344); UiPathBoth ].
Definition SIGN_INPUTS : list event :=
  [ sign_cmd 0x10 (be_bytes 2 1 ++ be_bytes 2 0 ++ be_bytes 1 1 ++ be_bytes 2 3);
    sign_cmd 0x11 TOKEN_A;
    sign_cmd 0x12 (FRAME ++ be_bytes 4 0) ].
Definition SIGN_OUTPUTS : list event :=
  [ output_head 600000000 36 501 1 0; sign_cmd 0x16 OTHER_TREE; sign_cmd 0x19 (be_bytes 4 0 ++ be_bytes 8 400); UiApprove;
    output_head 1000000 0 501 0 0; sign_cmd 0x17 [];
    output_head 399000000 0 501 1 0; sign_cmd 0x18 (path_bytes ADDRESS0); sign_cmd 0x19 (be_bytes 4 0 ++ be_bytes 8 500) ].
Definition SIGN_CONFIRM : list event := [ sign_cmd 0x20 [] ].
Definition SIGN_ALL : list event :=
  ATTEST_FRAME ++ SIGN_START ++ SIGN_INPUTS ++ SIGN_OUTPUTS ++ SIGN_CONFIRM ++ [UiApprove].

(** An output left open: one output is declared; a first one is opened and given 255 of the
    300 bytes announced for its script, then a second one is completed and approved. *)
Definition EVIL_TREE : bytes := [0x00; 0x08; 0xcd] ++ (2 :: repeat 0x66 32).
Definition SEEN_BYTES : bytes := vlq 1000000000 ++ OTHER_TREE ++ vlq 501 ++ [1] ++ vlq 0 ++ vlq 1000 ++ [0].
Definition EVIL_HEAD : bytes := EVIL_TREE ++ vlq 501 ++ [1] ++ vlq 0 ++ vlq 1000.
Definition PADDING : bytes := repeat 0 (255 - length EVIL_HEAD - 4).
Definition EVIL_REGS : bytes := [1; 0x0e] ++ vlq (blen (PADDING ++ SEEN_BYTES)) ++ PADDING.
Definition THEFT : list event :=
  ATTEST_FRAME ++ SIGN_START ++
  [ sign_cmd 0x10 (be_bytes 2 1 ++ be_bytes 2 0 ++ be_bytes 1 1 ++ be_bytes 2 1);
    sign_cmd 0x11 TOKEN_A; sign_cmd 0x12 (FRAME ++ be_bytes 4 0);
    output_head 1000000000 300 501 0 0; sign_cmd 0x16 (EVIL_HEAD ++ EVIL_REGS);
    output_head 1000000000 36 501 1 0; sign_cmd 0x16 OTHER_TREE; sign_cmd 0x19 (be_bytes 4 0 ++ be_bytes 8 1000); UiApprove;
    sign_cmd 0x20 []; UiApprove ].
Definition STOLEN : s_output :=
  mk_so 1000000000 36 501 1 (blen (EVIL_REGS ++ SEEN_BYTES)) (Some (SD_TREE EVIL_TREE)) [(0, 1000)] (EVIL_REGS ++ SEEN_BYTES) false false.

Example toy_attests : playable ATTEST_FRAME = true /\ length FRAME = 99%nat /\
  map (fun o => match snd o with [OResp b SW_OK] => blen b | [OShow _ _ _] => 1000 | _ => 2000 end) (trace ATTEST_FRAME) =
  [1000; 1; 0; 1; 99].
Proof. vm_compute. auto. Qed.
Example toy_signs : playable SIGN_ALL = true /\ length (answer SIGN_ALL) = 56%nat /\
  map (fun o => match snd o with [OResp b SW_OK] => blen b | [OShow _ _ _] => 1000 | _ => 2000 end) (trace SIGN_ALL) =
  [1000; 1; 0; 1; 99; 1000; 1; 0; 0; 0; 0; 0; 1000; 0; 0; 0; 0; 0; 0; 1000; 56].
Proof. vm_compute. auto. Qed.
