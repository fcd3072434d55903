(** Two devices that differ only in the wallet seed. *)
From Coq Require Import String.
From Verif Require Import Base Env UiFlow App SpecText SpecTrace SpecTx SpecApdu SpecRequest SpecStart.

(** The device [E] set up with another seed: other keys for the paths, everything else
    the same. *)
Definition with_seed (E : env) (derive : list N -> option (bytes * bytes)) : env :=
  mk_env (e_blake E) (e_hmac E) derive (e_mulG E) (e_id_keep E).

(** The device can sign with the key of the path. *)
Definition signable (E : env) (p : list N) : Prop :=
  exists secret chain, e_derive E p = Some (secret, chain) /\ usable E secret.
(** Both seeds yield keys for the same paths.  (With the real derivation every path has a
    usable key, up to events of negligible probability.) *)
Definition same_paths (E E' : env) : Prop :=
  forall p, (derivable E p <-> derivable E' p) /\ (signable E p <-> signable E' p).

(** The answer to the final approval: a signature, or the failure of the signature. *)
Definition signing_answer (o : output) : Prop :=
  (exists sig, length sig = 56%nat /\ o = OResp sig SW_OK) \/ o = OResp [] SW_SCHNORR_SIGNING_FAILED.

(** What two devices may do differently on the same event. *)
Inductive differ_by_seed (E E' : env) : event -> output -> output -> Prop :=
(** Nothing, *)
| differ_not : forall e o, differ_by_seed E E' e o o
(** export the extended key of the same path, *)
| differ_key : forall e p b b', exported_key E p b -> exported_key E' p b' ->
    differ_by_seed E E' e (OResp b SW_OK) (OResp b' SW_OK)
(** export the address of the same path, *)
| differ_address : forall e n p b b', address_at E n p b -> address_at E' n p b' ->
    differ_by_seed E E' e (OResp b SW_OK) (OResp b' SW_OK)
(** show the address of the same path on the same screen, *)
| differ_shown : forall e n p b b' t t' f1 f2, address_at E n p b -> address_at E' n p b' -> is_base58 b t -> is_base58 b' t' ->
    differ_by_seed E E' e (OShow U_DA (f1 ++ SC_TEXT (str "Address") t :: f2) []) (OShow U_DA (f1 ++ SC_TEXT (str "Address") t' :: f2) [])
(** sign. *)
| differ_signature : forall o o', signing_answer o -> signing_answer o' -> differ_by_seed E E' UiApprove o o'.

(** Same event, same number of outputs, and they differ only so. *)
Definition same_but_seed (E E' : env) (o o' : obs) : Prop :=
  fst o = fst o' /\ Forall2 (differ_by_seed E E' (fst o)) (snd o) (snd o').

(** Not a request for a key, an address or a signature. *)
Definition no_key_used (e : event) : bool :=
  match e with
  | Apdu _ ins _ _ _ _ => negb ((ins =? INS_KEY) || (ins =? INS_ADDRESS) || (ins =? INS_SIGN))
  | _ => true
  end.

(** The host's view of an output: status word and number of bytes. *)
Definition answer_shape (o : output) : option (sw * nat) :=
  match o with OResp b s => Some (s, length b) | _ => None end.
