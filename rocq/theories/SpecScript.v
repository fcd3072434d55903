(** What an address page says about the script of an output. *)
From Verif Require Import Base Env UiFlow P2pkOp App SpecText SpecTree SpecTrace SpecTx SpecScreen SpecRules.

(** The destinations a page of the script hash [h] stands for. *)
Definition script_of (E : env) (h : bytes) (dest : destination) : Prop :=
  exists t, dest = SD_TREE t /\
    (is_p2sh_tree h t \/
     (forall pk, ~ is_p2pk_tree pk t) /\ (forall h', ~ is_p2sh_tree h' t) /\ h = firstn 24 (e_blake E t)).
(** A path whose text does not fit a page. *)
Definition long_path (dest : destination) : Prop :=
  exists p full, dest = SD_CHANGE p /\ is_path_text p full /\ (70 <= length full)%nat.
(** The output on the screen: the network of the session and the destination. *)
Definition output_on_screen (tr : list obs) (network : N) (dest : destination) (pages : list page) : Prop :=
  exists q f start body before o, on_screen tr = Some (q, U_STX_OUTPUT, f, pages) /\
    session_of INS_SIGN tr = Some (start, body) /\ network = start_network (start_data start) /\
    sx_outputs (description body) = before ++ [o] /\ so_dest o = Some dest.
(** Equal hashes of these two byte strings mean equal byte strings. *)
Definition no_collision (E : env) (x y : bytes) : Prop := e_blake E x = e_blake E y -> x = y.
