(** Rules on amounts, frames and outputs, as a user would state them. *)
From Verif Require Import Base Env UiFlow App SpecTree SpecTrace SpecTx SpecAmounts SpecScreen.

(** ** Amounts *)

(** Totals that fit: the inputs in 64 bits, fee and change within the inputs, the balance
    of every token in 64 bits with sign. *)
Definition in_range (d : s_tx) : Prop :=
  total_in d < 2 ^ 64 /\ fees d + change d <= total_in d /\
  forall id, (- 2 ^ 63 <= balance d id < 2 ^ 63)%Z.
(** A list of token entries that names no token again after a non-zero amount of it. *)
Definition no_repeat (l : list (bytes * N)) : Prop :=
  forall a id v b w c, l = a ++ (id, v) :: b ++ (id, w) :: c -> v = 0.

(** ** Frames *)

(** The frame in [data] (command 0x12): long enough for its tokens and the tag, at most
    four tokens, and the tag is that of the device's key. *)
Definition attested_data (E : env) (key data : bytes) : Prop :=
  (43 + 40 * frame_ntokens data + 16 <= length data)%nat /\ (frame_ntokens data <= 4)%nat /\
  frame_tag data = firstn 16 (e_hmac E key (frame_body data)).
(** [frames], in this order, are the frames of the input [i]: attested, for its box id,
    numbered 0, 1, ...; the first one states the value and the number of frames. *)
Definition input_frames (E : env) (key : bytes) (i : s_input) (frames : list bytes) : Prop :=
  si_frames i = map frame_tokens frames /\
  Forall (fun data => attested_data E key data /\ slice 0 32 data = si_id i) frames /\
  (forall k data, nth_error frames k = Some data -> num 33 1 data = N.of_nat k) /\
  (exists data, nth_error frames 0 = Some data /\ num 32 1 data = si_count i /\ num 34 8 data = si_value i) /\
  blen frames <= si_count i.
(** All the frames accepted belong to the inputs, one input after the other. *)
Definition inputs_framed (E : env) (key : bytes) (body : list obs) (groups : list (list bytes)) : Prop :=
  concat groups = pieces INS_SIGN 0x12 body /\
  Forall2 (input_frames E key) (sx_inputs (description body)) groups.
(** The frame in [data] is in order after [inputs]: the first one of a new input, the
    others complete; or the next one of the last input. *)
Definition frame_in_order (inputs : list s_input) (data : bytes) : Prop :=
  num 33 1 data = 0 /\ 0 < num 32 1 data /\ Forall (fun i => input_complete i = true) inputs \/
  exists pre i, inputs = pre ++ [i] /\ slice 0 32 data = si_id i /\
    0 < num 33 1 data /\ num 33 1 data = blen (si_frames i) /\ blen (si_frames i) < si_count i.

(** ** Outputs accepted without asking *)

(** A miners' fee that holds no tokens. *)
Definition plain_fee (o : s_output) : Prop :=
  so_dest o = Some SD_FEE /\ Forall (fun t => snd t = 0) (so_tokens o).
(** m/44'/429'/a'/c/i with c = 0 or 1. *)
Definition wallet_path (p : list N) : Prop :=
  exists a c i, p = [2 ^ 31 + 44; 2 ^ 31 + 429; a; c; i] /\ 2 ^ 31 <= a /\ (c = 0 \/ c = 1) /\ i < 2 ^ 31.
(** The path of the last output shown, if it is a change output. *)
Definition last_shown_change (before : list s_output) : option (list N) :=
  match rev (filter so_shown before) with
  | o :: _ => match so_dest o with Some (SD_CHANGE p) => Some p | _ => None end
  | [] => None
  end.
(** Change as the code accepts it: a wallet path whose chain is that of the signing path
    and whose index is less than 20 above, or any wallet path if the last output shown
    was change to a path of five components. *)
Definition automatic_change (signing : list N) (before : list s_output) (o : s_output) : Prop :=
  exists p, so_dest o = Some (SD_CHANGE p) /\ wallet_path p /\
    (nth 3 p 0 = nth 3 signing 0 /\ nth 4 p 0 < nth 4 signing 0 + 20 \/
     exists q, last_shown_change before = Some q /\ length q = 5%nat).
(** Change as intended: in the account and chain of the signing path, less than 20 above
    its index, or to the path approved just before. *)
Definition intended_change (signing : list N) (before : list s_output) (o : s_output) : Prop :=
  exists p, so_dest o = Some (SD_CHANGE p) /\
    (nth 2 p 0 = nth 2 signing 0 /\ nth 3 p 0 = nth 3 signing 0 /\ nth 4 p 0 < nth 4 signing 0 + 20 \/
     last_shown_change before = Some p).

(** ** Outputs shown *)

(** Same contents, whatever was shown and approved. *)
Definition same_output (a b : s_output) : Prop :=
  so_value a = so_value b /\ so_dest a = so_dest b /\ so_height a = so_height b /\ so_tokens a = so_tokens b /\
  so_regs a = so_regs b /\ so_tree_len a = so_tree_len b /\ so_ntokens a = so_ntokens b /\ so_regs_len a = so_regs_len b.
(** In [body] the device showed [pages] to confirm an output when the output [o], after
    those of [before], had just been completed; then, before anything else was shown, the
    user approved. *)
Definition seen_and_approved (body : list obs) (before : list s_output) (o : s_output) (pages : list page) : Prop :=
  exists b1 c b2 a b3 f o', body = b1 ++ c :: b2 ++ a :: b3 /\
    shown_by (snd c) = Some (U_STX_OUTPUT, f, pages) /\
    sx_outputs (description (b1 ++ [c])) = before ++ [o'] /\ same_output o' o /\ output_complete o' = true /\
    Forall (fun x => shown_by (snd x) = None /\ is_approval x = false) b2 /\ is_approval a = true.

(** ** Where frames come from *)

(** The frame in [data] is frame [i] of the box [b] (value, number and index as stated in
    it, up to four of the tokens) with the tag of the device. *)
Definition frame_from (E : env) (key data : bytes) (b : s_box) (i : N) : Prop :=
  frame_body data ++ frame_tag data = tagged E key (frame_of E b i) /\
  slice 0 32 data = box_id E b /\ num 32 1 data = frame_total b /\ num 33 1 data = i /\ i < frame_total b /\
  num 34 8 data = sb_value b /\ frame_tokens data = firstn 4 (skipn (4 * N.to_nat i) (sb_tokens b)).
(** In [tr] the device answered a frame of the box [b], streamed completely before. *)
Definition attested_box (E : env) (key : bytes) (tr : list obs) (b : s_box) : Prop :=
  exists pre o post start body i, tr = pre ++ o :: post /\ session_of INS_ATTEST pre = Some (start, body) /\
    b = streamed_box start body /\ sb_complete b = true /\ i < frame_total b /\
    snd o = [OResp (tagged E key (frame_of E b i)) SW_OK].
(** Nobody but the device makes tags: the frame and tag of each frame command accepted in
    [tr] were an answer of the device before. *)
Definition no_forgery (tr : list obs) : Prop :=
  forall pre c post data, tr = pre ++ c :: post -> continuation INS_SIGN c = Some (0x12, data) ->
    exists o, In o pre /\ In (OResp (frame_body data ++ frame_tag data) SW_OK) (snd o).
(** The id of a box attested in [tr] determines its tokens (C56). *)
Definition ids_unambiguous (E : env) (key : bytes) (tr : list obs) : Prop :=
  forall b b', attested_box E key tr b -> attested_box E key tr b' -> box_id E b = box_id E b' -> sb_tokens b = sb_tokens b'.
