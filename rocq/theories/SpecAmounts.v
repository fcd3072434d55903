(** Totals of a described transaction, as mathematical integers. *)
From Verif Require Import Base SpecTx.

Definition total (l : list N) : N := fold_right N.add 0 l.

(** Sum of the input values; of the outputs to the miners' fee; of the change outputs. *)
Definition total_in (d : s_tx) : N := total (map si_value (sx_inputs d)).
Definition is_fee (o : s_output) : bool := match so_dest o with Some SD_FEE => true | _ => false end.
Definition is_change (o : s_output) : bool := match so_dest o with Some (SD_CHANGE _) => true | _ => false end.
Definition fees (d : s_tx) : N := total (map so_value (filter is_fee (sx_outputs d))).
Definition change (d : s_tx) : N := total (map so_value (filter is_change (sx_outputs d))).

(** Token entries (id, amount) of the inputs; of an output (its entries name the distinct
    tokens by index); of all outputs. *)
Definition input_tokens (d : s_tx) : list (bytes * N) := concat (map (fun i => concat (si_frames i)) (sx_inputs d)).
Definition tokens_of (d : s_tx) (o : s_output) : list (bytes * N) :=
  map (fun t => (nth (N.to_nat (fst t)) (sx_tokens d) [], snd t)) (so_tokens o).
Definition output_tokens (d : s_tx) : list (bytes * N) := concat (map (tokens_of d) (sx_outputs d)).
Definition amount_of (id : bytes) (l : list (bytes * N)) : N :=
  total (map snd (filter (fun t => bytes_eqb (fst t) id) l)).
(** What the inputs hold of a token minus what the outputs hold. *)
Definition balance (d : s_tx) (id : bytes) : Z :=
  (Z.of_N (amount_of id (input_tokens d)) - Z.of_N (amount_of id (output_tokens d)))%Z.

(** Each id once, at its first occurrence. *)
Definition distinct_ids (l : list bytes) : list bytes :=
  fold_left (fun acc x => if existsb (bytes_eqb x) acc then acc else acc ++ [x]) l [].
(** The token ids of the transaction: the declared ones, then those only seen in inputs. *)
Definition token_ids (d : s_tx) : list bytes := distinct_ids (sx_tokens d ++ map fst (input_tokens d)).
