(** src/helpers/input_frame.c, input_frame.h and the frame written by
    src/commands/attestinput/ainpt_response.c. *)
From Verif Require Import Base.

(** input_frame.h:12-17, constants.h: INPUT_FRAME_SIGNATURE_LEN *)
Definition FRAME_MAX_TOKENS_COUNT : N := 4.
Definition FRAME_PAIR_SIZE : N := 40.
Definition FRAME_TOKEN_COUNT_POSITION : nat := 42.
Definition FRAME_PREFIX_LEN : N := 43.
Definition FRAME_SIGNATURE_LEN : nat := 16.
Definition FRAME_MIN_SIZE : N := 59.

(** input_frame.c:4-14: 0 stands for failure; the length is a uint8_t. *)
Definition input_frame_data_length (l : bytes) : N :=
  if blen l <? FRAME_MIN_SIZE then 0
  else
    let token_count := nth FRAME_TOKEN_COUNT_POSITION l 0 in
    let data_len := u8 (token_count * FRAME_PAIR_SIZE + FRAME_PREFIX_LEN) in
    if blen l <? data_len + N.of_nat FRAME_SIGNATURE_LEN then 0 else data_len.

(** ainpt_response.c:11-14 *)
Definition get_frames_count (tokens_count : N) : N :=
  let n := u8 ((tokens_count + (FRAME_MAX_TOKENS_COUNT - 1)) / FRAME_MAX_TOKENS_COUNT) in
  if n =? 0 then 1 else n.

Definition token_pair (t : bytes * N) : bytes := fst t ++ be_bytes 8 (snd t).

(** ainpt_response.c:33-46: the authenticated part of a frame (before the signature).
    [tokens] is the token table with its amounts. *)
Definition frame_data (box_id : bytes) (value : N) (tokens : list (bytes * N)) (index : N) : bytes :=
  let n := blen tokens in
  let tc := N.min (u8 (n + two8 - u8 (index * FRAME_MAX_TOKENS_COUNT))) FRAME_MAX_TOKENS_COUNT in
  box_id ++ [get_frames_count n] ++ [index] ++ be_bytes 8 value ++ [tc] ++
  concat (map token_pair
            (firstn (N.to_nat tc) (skipn (N.to_nat (index * FRAME_MAX_TOKENS_COUNT)) tokens))).

(** ainpt_response.c:21-58 after the index check; the writes fit the 258-byte output
    buffer (proved in AttestProofs). *)
Definition attested_frame (hmac : bytes -> bytes -> bytes) (key box_id : bytes) (value : N)
           (tokens : list (bytes * N)) (index : N) : bytes :=
  let d := frame_data box_id value tokens index in
  d ++ firstn FRAME_SIGNATURE_LEN (hmac key d).
