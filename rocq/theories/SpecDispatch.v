(** What the host and the user see of the command interface, from doc/: the screens of each
    instruction, the sizes of the answers, the form of the flows, walking through pages. *)
From Verif Require Import Base Env UiFlow App SpecTx SpecTrace SpecApdu SpecScreen.

(** The questions an instruction may put on the screen. *)
Definition screens_of (ins : N) : list ui_kind :=
  if ins =? INS_KEY then [U_EPK]
  else if ins =? INS_ADDRESS then [U_DA]
  else if ins =? INS_ATTEST then [U_ATTEST]
  else if ins =? INS_SIGN then [U_STX_APPROVE; U_STX_OUTPUT; U_STX_TX]
  else [].

(** Lengths of the data of a successful answer to [e] while [q] is on the screen. *)
Definition answer_sizes (q : option question) (e : event) : list N :=
  match e with
  | Apdu _ ins p1 _ _ _ =>
      if (ins =? INS_VERSION) || (ins =? INS_NAME) then [4]
      else if ins =? INS_KEY then [65]                      (* key 33, chain code 32 *)
      else if ins =? INS_ADDRESS then [38]                  (* network+type 1, key 33, checksum 4 *)
      else if ins =? INS_ATTEST then
        if p1 =? 1 then [1]                                 (* session id *)
        else if p1 =? 5 then [59; 99; 139; 179; 219]        (* frame of 0 .. 4 tokens *)
        else [0; 1]                                         (* nothing, or the number of frames *)
      else if ins =? INS_SIGN then [0]
      else []
  | UiApprove =>
      match q with
      | Some (_, U_EPK, _, _) => [65]
      | Some (Apdu _ _ p1 _ _ _, U_DA, _, _) => if p1 =? 1 then [38] else [0]
      | Some (_, U_ATTEST, _, _) | Some (_, U_STX_APPROVE, _, _) => [1]
      | Some (_, U_STX_OUTPUT, _, _) => [0]
      | Some (_, U_STX_TX, _, _) => [56]                    (* signature: 24 and 32 bytes *)
      | _ => []
      end
  | UiPathBoth => match q with Some (_, U_STX_APPROVE, _, _) => [1] | _ => [] end
  | _ => []
  end.

(** A flow: its own screens, the approve/reject pair, the end markers; at most the eight
    cells of the table.  Only the signing screens have computed pages. *)
Definition static_screen (s : screen) : Prop :=
  match s with SC_INFO _ | SC_TEXT _ _ | SC_PATH _ _ _ => True | _ => False end.
Definition flow_ok (k : ui_kind) (f : flow) (pages : list page) : Prop :=
  exists body, f = body ++ [SC_APPROVE; SC_REJECT; SC_LOOP; SC_END] /\ (length f <= 8)%nat /\
    match k with
    | U_STX_OUTPUT | U_STX_TX => exists title, body = [SC_INFO title; SC_UPPER; SC_PAGE; SC_LOWER] /\ (1 <= length pages <= 254)%nat
    | _ => Forall static_screen body /\ pages = []
    end.

(** Walking through pages: what each button press draws ([run] gives the outputs of a
    list of events). *)
Definition drawn (i : nat) (p : text * text) : list output := [OPage (N.of_nat i) (fst p) (snd p)].
(** All pages with their numbers, first to last. *)
Definition drawn_all (ps : list (text * text)) : list (list output) :=
  map (fun i => drawn i (nth i ps ([], []))) (seq 0 (length ps)).
