(** The values the repository's own unit tests expect, from the model (unit-tests/): evidence
    that the model computes what the code computes.  The hash is BLAKE2b-256 itself. *)
From Verif Require Import Base Env SafeInt Zigzag Gve Bip32 ErgoTree InputFrame TxTable TxInput TxBox TxFull Address.
From Verif Require Import SpecBlake.

(** The unit tests set no callbacks. *)
Definition no_cb : box_callbacks token_table := mk_box_callbacks None None None.
Definition no_in_cb (id : bytes) (t : token_id) (v : N) (a : token_table) : res * token_table := (R_OK, a).
Definition tget (t : token_table) : token_table := t.
Definition tset (t _ : token_table) : token_table := t.
(** assert_int_equal(call, OK), and go on. *)
Definition ok {S} (r : res * S) (k : S -> res * S) : res * S := match r with (R_OK, s) => k s | _ => r end.

(** ** test_full_tx.c *)
Definition INPUT_BOX_0_ID : bytes :=
  [0xee; 0x52; 0x85; 0xa4; 0x1e; 0x36; 0x80; 0x26; 0x9c; 0x80; 0xbf; 0x87; 0xd3; 0x0e; 0xf7; 0x02;
  0x9d; 0x64; 0x60; 0x39; 0xc3; 0x5d; 0xfe; 0x96; 0x78; 0x61; 0xb3; 0x9f; 0x33; 0x03; 0x15; 0x64].
Definition OUT_ERGO_TREE : bytes :=
  [0x00; 0x08; 0xcd; 0x03; 0x20; 0x94; 0xbc; 0x1f; 0xc3; 0xe5; 0x13; 0x36; 0x2a; 0x2e; 0x3d; 0x2e;
  0xb8; 0x02; 0x28; 0x3c; 0x98; 0xbc; 0x31; 0x40; 0xdf; 0xf8; 0xf5; 0x4c; 0x6f; 0x40; 0x9d; 0xd6;
  0x4e; 0xae; 0x18; 0xc3].
Definition CHANGE_ERGO_TREE : bytes :=
  [0x00; 0x08; 0xcd; 0x03; 0x4b; 0x47; 0xc2; 0xa9; 0x67; 0x60; 0xcb; 0xce; 0x18; 0xf8; 0x47; 0x9a;
  0xd9; 0x1a; 0x8d; 0x3c; 0x29; 0x46; 0xcd; 0x29; 0xa1; 0xbd; 0xe4; 0xb2; 0x3f; 0xb5; 0x90; 0xc3;
  0x84; 0x14; 0xf7; 0x7d].
Definition simple_send_tx : res * fs token_table :=
  ok (full_init tget tset 1 0 3 0 [] []) (fun s =>
  ok (full_add_input s INPUT_BOX_0_ID 1 0) (fun s =>
  ok (full_add_input_tokens tget no_in_cb s INPUT_BOX_0_ID 0 []) (fun s =>
  ok (full_add_box s 1000000 36 201644 0 0) (fun s =>
  ok (full_add_box_ergo_tree no_cb s OUT_ERGO_TREE) (fun s =>
  ok (full_add_box s 1100000 0 201644 0 0) (fun s =>
  ok (full_add_box_miners_fee_tree no_cb s false) (fun s =>
  ok (full_add_box s 4997900000 36 201644 0 0) (fun s =>
  full_add_box_ergo_tree no_cb s CHANGE_ERGO_TREE)))))))).
Example test_simple_send_tx :
  let '(r, s) := simple_send_tx in
  r = R_OK /\ fl_state (fs_full s) = FL_FINISHED
  /\ blake2b 32 (fs_hash s) =
  [0xe2; 0xd0; 0x4a; 0xde; 0x88; 0x0e; 0xf0; 0x4b; 0xee; 0xdc; 0x6a; 0xc5; 0x70; 0x40; 0xc8; 0x35;
  0xc7; 0x18; 0x6d; 0x8d; 0x41; 0x78; 0x01; 0x58; 0xd5; 0xb3; 0xbe; 0x56; 0x45; 0x56; 0x4a; 0x5d].
Proof. vm_compute. repeat split. Qed.
Definition added_box : res * fs token_table :=
  ok (full_init tget tset 1 1 1 1 [] []) (fun s =>
  ok (full_add_tokens tget tset s (repeat 2 32)) (fun s =>
  ok (full_add_input s (repeat 3 32) 1 2) (fun s =>
  ok (full_add_input_tokens tget no_in_cb s (repeat 3 32) 0 (repeat 4 32 ++ [1; 2; 3; 4; 5; 6; 7; 8])) (fun s =>
  ok (full_add_input_context_extension tget no_in_cb s [1; 2]) (fun s =>
  ok (full_add_data_inputs tget s (repeat 5 32)) (fun s =>
  full_add_box s 12345 1 1 1 1)))))).
Example test_full_add_box :
  fst added_box = R_OK
  /\ fst (full_add_box_ergo_tree no_cb (snd added_box) [1]) = R_OK
  /\ fst (full_add_box_change_tree no_cb (snd added_box) (4 :: repeat 7 64)) = R_OK
  /\ fst (full_add_box_miners_fee_tree no_cb (snd added_box) true) = R_OK
  /\ fst (ok (full_add_box_ergo_tree no_cb (snd added_box) [1]) (fun s =>
          full_add_box_tokens tget no_cb s [0; 0; 0; 0; 1; 1; 1; 1; 1; 1; 1; 1])) = R_OK
  /\ fst (ok (full_add_box_ergo_tree no_cb (snd added_box) [1]) (fun s =>
          ok (full_add_box_tokens tget no_cb s [0; 0; 0; 0; 1; 1; 1; 1; 1; 1; 1; 1]) (fun s =>
          full_add_box_registers no_cb s [1]))) = R_OK.
Proof. vm_compute. repeat split. Qed.
Example test_full_init :
  (let '(r, s) := full_init tget tset 1 0 1 1 [] [] in
   r = R_OK /\ fs_hash s = [1] /\ fl_state (fs_full s) = FL_TOKENS_STARTED /\ fl_distinct (fs_full s) = 1)
  /\ (let '(r, s) := full_init tget tset 1 0 1 0 [] [] in
      r = R_OK /\ fs_hash s = [1] /\ fl_state (fs_full s) = FL_INPUTS_STARTED /\ fl_distinct (fs_full s) = 0).
Proof. vm_compute. repeat split. Qed.

(** ** test_address.c, test_ergo_tree.c *)
Definition public_key : bytes :=
  [0x04; 0x8b; 0x9f; 0xf8; 0x5d; 0xdd; 0x9f; 0x1e; 0x22; 0x88; 0xfc; 0x53; 0x9d; 0x39; 0xc7; 0xc4;
  0xee; 0xb7; 0xa5; 0x56; 0xf4; 0xd8; 0x11; 0xcb; 0x73; 0x99; 0x64; 0x18; 0xde; 0x5a; 0xbd; 0xcb;
  0x2a; 0xfa; 0x2d; 0x53; 0x17; 0x16; 0x0a; 0x59; 0x50; 0x0f; 0x5d; 0x31; 0xfa; 0xe8; 0x6b; 0xce;
  0xe9; 0xab; 0x1a; 0x60; 0x53; 0xa1; 0x1d; 0x53; 0x5d; 0x2d; 0x04; 0x3c; 0xe5; 0xcf; 0xf1; 0x0a;
  0xe7].
Example test_ergo_address_from_pubkey :
  ergo_address_from_pubkey (blake2b 32) 0 public_key = Some
  [0x01; 0x03; 0x8b; 0x9f; 0xf8; 0x5d; 0xdd; 0x9f; 0x1e; 0x22; 0x88; 0xfc; 0x53; 0x9d; 0x39; 0xc7;
  0xc4; 0xee; 0xb7; 0xa5; 0x56; 0xf4; 0xd8; 0x11; 0xcb; 0x73; 0x99; 0x64; 0x18; 0xde; 0x5a; 0xbd;
  0xcb; 0x2a; 0xb5; 0x2d; 0xca; 0xce].
Proof. vm_compute. reflexivity. Qed.
Example test_ergo_tree_generate_p2pk : ergo_tree_generate_p2pk public_key =
  [0x00; 0x08; 0xcd; 0x03; 0x8b; 0x9f; 0xf8; 0x5d; 0xdd; 0x9f; 0x1e; 0x22; 0x88; 0xfc; 0x53; 0x9d;
  0x39; 0xc7; 0xc4; 0xee; 0xb7; 0xa5; 0x56; 0xf4; 0xd8; 0x11; 0xcb; 0x73; 0x99; 0x64; 0x18; 0xde;
  0x5a; 0xbd; 0xcb; 0x2a].
Proof. vm_compute. reflexivity. Qed.
Example test_ergo_tree_miners_fee_tree : ergo_tree_miners_fee_tree true =
  [0x10; 0x05; 0x04; 0x00; 0x04; 0x00; 0x0e; 0x36; 0x10; 0x02; 0x04; 0xa0; 0x0b; 0x08; 0xcd; 0x02;
  0x79; 0xbe; 0x66; 0x7e; 0xf9; 0xdc; 0xbb; 0xac; 0x55; 0xa0; 0x62; 0x95; 0xce; 0x87; 0x0b; 0x07;
  0x02; 0x9b; 0xfc; 0xdb; 0x2d; 0xce; 0x28; 0xd9; 0x59; 0xf2; 0x81; 0x5b; 0x16; 0xf8; 0x17; 0x98;
  0xea; 0x02; 0xd1; 0x92; 0xa3; 0x9a; 0x8c; 0xc7; 0xa7; 0x01; 0x73; 0x00; 0x73; 0x01; 0x10; 0x01;
  0x02; 0x04; 0x02; 0xd1; 0x96; 0x83; 0x03; 0x01; 0x93; 0xa3; 0x8c; 0xc7; 0xb2; 0xa5; 0x73; 0x00;
  0x00; 0x01; 0x93; 0xc2; 0xb2; 0xa5; 0x73; 0x01; 0x00; 0x74; 0x73; 0x02; 0x73; 0x03; 0x83; 0x01;
  0x08; 0xcd; 0xee; 0xac; 0x93; 0xb1; 0xa5; 0x73; 0x04]
  /\ ergo_tree_miners_fee_tree false = ergo_tree_miners_fee_tree true.
Proof. vm_compute. split; reflexivity. Qed.

(** ** test_tx_ser_box.c *)
Definition box_start : res * bs token_table := box_init 12345 2 3 2 2 [] [].
Definition two_ids : N * token_table := (2, [repeat 1 32; repeat 2 32]).
Definition with_tree := ok box_start (fun s => box_add_tree no_cb s [1; 2]).
Definition two_tokens : bytes :=
  [0; 0; 0; 0; 1; 1; 1; 1; 1; 1; 1; 1; 0; 0; 0; 1; 2; 2; 2; 2; 2; 2; 2; 2].
Definition with_tokens := ok with_tree (fun s => box_add_tokens no_cb s two_tokens (Some two_ids)).
Definition with_registers := ok with_tokens (fun s => box_add_registers no_cb s [1; 2]).
Definition box_check (x : res * bs token_table) (st : box_state) (h : bytes) : Prop :=
  fst x = R_OK /\ bx_state (bs_box (snd x)) = st /\ bs_hash (snd x) = h.
Example test_box :
  box_check box_start BX_INITIALIZED [0xb9; 0x60]
  /\ box_check with_tree BX_TREE_ADDED [0xb9; 0x60; 0x01; 0x02; 0x03; 0x02]
  /\ box_check (ok box_start (fun s => box_add_miners_fee_tree no_cb s true)) BX_TREE_ADDED
  [0xb9; 0x60; 0x10; 0x05; 0x04; 0x00; 0x04; 0x00; 0x0e; 0x36; 0x10; 0x02; 0x04; 0xa0; 0x0b; 0x08;
  0xcd; 0x02; 0x79; 0xbe; 0x66; 0x7e; 0xf9; 0xdc; 0xbb; 0xac; 0x55; 0xa0; 0x62; 0x95; 0xce; 0x87;
  0x0b; 0x07; 0x02; 0x9b; 0xfc; 0xdb; 0x2d; 0xce; 0x28; 0xd9; 0x59; 0xf2; 0x81; 0x5b; 0x16; 0xf8;
  0x17; 0x98; 0xea; 0x02; 0xd1; 0x92; 0xa3; 0x9a; 0x8c; 0xc7; 0xa7; 0x01; 0x73; 0x00; 0x73; 0x01;
  0x10; 0x01; 0x02; 0x04; 0x02; 0xd1; 0x96; 0x83; 0x03; 0x01; 0x93; 0xa3; 0x8c; 0xc7; 0xb2; 0xa5;
  0x73; 0x00; 0x00; 0x01; 0x93; 0xc2; 0xb2; 0xa5; 0x73; 0x01; 0x00; 0x74; 0x73; 0x02; 0x73; 0x03;
  0x83; 0x01; 0x08; 0xcd; 0xee; 0xac; 0x93; 0xb1; 0xa5; 0x73; 0x04; 0x03; 0x02]
  /\ box_check (ok box_start (fun s => box_add_miners_fee_tree no_cb s false)) BX_TREE_ADDED
  [0xb9; 0x60; 0x10; 0x05; 0x04; 0x00; 0x04; 0x00; 0x0e; 0x36; 0x10; 0x02; 0x04; 0xa0; 0x0b; 0x08;
  0xcd; 0x02; 0x79; 0xbe; 0x66; 0x7e; 0xf9; 0xdc; 0xbb; 0xac; 0x55; 0xa0; 0x62; 0x95; 0xce; 0x87;
  0x0b; 0x07; 0x02; 0x9b; 0xfc; 0xdb; 0x2d; 0xce; 0x28; 0xd9; 0x59; 0xf2; 0x81; 0x5b; 0x16; 0xf8;
  0x17; 0x98; 0xea; 0x02; 0xd1; 0x92; 0xa3; 0x9a; 0x8c; 0xc7; 0xa7; 0x01; 0x73; 0x00; 0x73; 0x01;
  0x10; 0x01; 0x02; 0x04; 0x02; 0xd1; 0x96; 0x83; 0x03; 0x01; 0x93; 0xa3; 0x8c; 0xc7; 0xb2; 0xa5;
  0x73; 0x00; 0x00; 0x01; 0x93; 0xc2; 0xb2; 0xa5; 0x73; 0x01; 0x00; 0x74; 0x73; 0x02; 0x73; 0x03;
  0x83; 0x01; 0x08; 0xcd; 0xee; 0xac; 0x93; 0xb1; 0xa5; 0x73; 0x04; 0x03; 0x02]
  /\ box_check (ok box_start (fun s => box_add_change_tree no_cb s public_key)) BX_TREE_ADDED
  [0xb9; 0x60; 0x00; 0x08; 0xcd; 0x03; 0x8b; 0x9f; 0xf8; 0x5d; 0xdd; 0x9f; 0x1e; 0x22; 0x88; 0xfc;
  0x53; 0x9d; 0x39; 0xc7; 0xc4; 0xee; 0xb7; 0xa5; 0x56; 0xf4; 0xd8; 0x11; 0xcb; 0x73; 0x99; 0x64;
  0x18; 0xde; 0x5a; 0xbd; 0xcb; 0x2a; 0x03; 0x02]
  /\ box_check with_tokens BX_TOKENS_ADDED
  [0xb9; 0x60; 0x01; 0x02; 0x03; 0x02; 0x00; 0x81; 0x82; 0x84; 0x88; 0x90; 0xa0; 0xc0; 0x80; 0x01;
  0x01; 0x82; 0x84; 0x88; 0x90; 0xa0; 0xc0; 0x80; 0x81; 0x02]
  /\ box_check with_registers BX_FINISHED
  [0xb9; 0x60; 0x01; 0x02; 0x03; 0x02; 0x00; 0x81; 0x82; 0x84; 0x88; 0x90; 0xa0; 0xc0; 0x80; 0x01;
  0x01; 0x82; 0x84; 0x88; 0x90; 0xa0; 0xc0; 0x80; 0x81; 0x02; 0x01; 0x02].
Proof. vm_compute. repeat split. Qed.
Example test_box_id_hash :
  let '(r, s, id) := box_id_hash (blake2b 32) (snd with_registers) (repeat 1 32) 1 in
  r = R_OK /\ bx_state (bs_box s) = BX_HASH_FINALIZED
  /\ id =
  [0xf1; 0xca; 0x1e; 0x06; 0x0a; 0xa1; 0x1f; 0x98; 0x9b; 0x3d; 0x70; 0xec; 0x0e; 0x0c; 0x98; 0x7c;
  0x95; 0x2e; 0x23; 0x89; 0xbe; 0x5b; 0x82; 0x0b; 0xc7; 0xdb; 0xfc; 0x32; 0x6f; 0x86; 0x13; 0x73]
  /\ bs_hash s =
  [0xb9; 0x60; 0x01; 0x02; 0x03; 0x02; 0x00; 0x81; 0x82; 0x84; 0x88; 0x90; 0xa0; 0xc0; 0x80; 0x01;
  0x01; 0x82; 0x84; 0x88; 0x90; 0xa0; 0xc0; 0x80; 0x81; 0x02; 0x01; 0x02; 0x01; 0x01; 0x01; 0x01;
  0x01; 0x01; 0x01; 0x01; 0x01; 0x01; 0x01; 0x01; 0x01; 0x01; 0x01; 0x01; 0x01; 0x01; 0x01; 0x01;
  0x01; 0x01; 0x01; 0x01; 0x01; 0x01; 0x01; 0x01; 0x01; 0x01; 0x01; 0x01; 0x01].
Proof. vm_compute. repeat split. Qed.
Example test_box_errors :
  fst (box_init (A := token_table) 12345 2 3 (TOKEN_MAX_COUNT + 1) 1 [] []) = R_TOO_MANY_TOKENS
  /\ fst (box_init (A := token_table) 12345 (MAX_TX_DATA_PART_LEN + 1) 3 1 1 [] []) = R_TOO_MUCH_DATA
  /\ fst (box_init (A := token_table) 12345 2 3 1 (MAX_TX_DATA_PART_LEN + 1) [] []) = R_TOO_MUCH_DATA
  /\ fst (box_add_tree no_cb (snd with_tree) [1; 2]) = R_BAD_STATE
  /\ fst (ok (box_init 12345 1 3 1 1 [] []) (fun s => box_add_tree no_cb s [1; 2])) = R_TOO_MUCH_DATA
  /\ fst (ok (box_init 12345 (MAX_DATA_CHUNK_LEN + 1) 3 1 1 [] [])
             (fun s => box_add_tree no_cb s (repeat 0 (N.to_nat MAX_DATA_CHUNK_LEN)))) = R_MORE_DATA
  /\ fst (box_add_change_tree no_cb (snd with_tree) (repeat 0 65)) = R_BAD_STATE.
Proof. vm_compute. repeat split. Qed.

(** ** test_tx_ser_input.c *)
Definition box_id : bytes :=
  [0xf1; 0xca; 0x1e; 0x06; 0x0a; 0xa1; 0x1f; 0x98; 0x9b; 0x3d; 0x70; 0xec; 0x0e; 0x0c; 0x98; 0x7c;
  0x95; 0x2e; 0x23; 0x89; 0xbe; 0x5b; 0x82; 0x0b; 0xc7; 0xdb; 0xfc; 0x32; 0x6f; 0x86; 0x13; 0x73].
Definition input_start (frames ext : N) : res * ins token_table :=
  let '(r, c) := input_init box_id frames ext in (r, mk_ins c [] [repeat 1 32]).
Definition in_check (x : res * ins token_table) (r : res) (st : input_state) : Prop :=
  fst x = r /\ in_state (is_in (snd x)) = st.
Definition add_tok (frames ext : N) (id : bytes) (index : N) (tokens : bytes) :=
  ok (input_start frames ext) (fun s => input_add_tokens None s id index tokens).
Definition with_frame := add_tok 1 3 box_id 0 (repeat 1 40).
Example test_input :
  in_check (input_start 1 3) R_OK IN_FRAMES_STARTED
  /\ in_check (input_start 1 1) R_BAD_CONTEXT_EXTENSION_SIZE IN_ERROR
  /\ in_check with_frame R_OK IN_EXTENSION_STARTED /\ is_hash (snd with_frame) =
  [0xf1; 0xca; 0x1e; 0x06; 0x0a; 0xa1; 0x1f; 0x98; 0x9b; 0x3d; 0x70; 0xec; 0x0e; 0x0c; 0x98; 0x7c;
  0x95; 0x2e; 0x23; 0x89; 0xbe; 0x5b; 0x82; 0x0b; 0xc7; 0xdb; 0xfc; 0x32; 0x6f; 0x86; 0x13; 0x73;
  0x00]
  /\ in_check (add_tok 1 0 box_id 0 (repeat 1 40)) R_OK IN_FINISHED /\ is_hash (snd (add_tok 1 0 box_id 0 (repeat 1 40))) =
  [0xf1; 0xca; 0x1e; 0x06; 0x0a; 0xa1; 0x1f; 0x98; 0x9b; 0x3d; 0x70; 0xec; 0x0e; 0x0c; 0x98; 0x7c;
  0x95; 0x2e; 0x23; 0x89; 0xbe; 0x5b; 0x82; 0x0b; 0xc7; 0xdb; 0xfc; 0x32; 0x6f; 0x86; 0x13; 0x73;
  0x00; 0x00]
  /\ in_check (input_add_tokens None (snd with_frame) box_id 0 (repeat 1 40)) R_BAD_STATE IN_ERROR
  /\ in_check (add_tok 1 3 (repeat 1 32) 0 (repeat 1 40)) R_BAD_INPUT_ID IN_ERROR
  /\ in_check (add_tok 1 3 box_id 1 (repeat 1 40)) R_TOO_MANY_INPUT_FRAMES IN_ERROR
  /\ in_check (add_tok 2 3 box_id 1 (repeat 1 40)) R_BAD_FRAME_INDEX IN_ERROR
  /\ in_check (add_tok 1 3 box_id 0 (repeat 1 31)) R_BAD_TOKEN_ID IN_ERROR
  /\ in_check (add_tok 1 3 box_id 0 (repeat 1 39)) R_BAD_TOKEN_VALUE IN_ERROR
  /\ fst (add_tok 2 3 box_id 0 (repeat 1 40)) = R_MORE_DATA.
Proof. vm_compute. repeat split. Qed.
Definition with_ext (chunk : bytes) := ok with_frame (fun s => input_add_context_extension s chunk).
Example test_input_context_extension :
  in_check (with_ext [1; 2; 3]) R_OK IN_FINISHED /\ is_hash (snd (with_ext [1; 2; 3])) =
  [0xf1; 0xca; 0x1e; 0x06; 0x0a; 0xa1; 0x1f; 0x98; 0x9b; 0x3d; 0x70; 0xec; 0x0e; 0x0c; 0x98; 0x7c;
  0x95; 0x2e; 0x23; 0x89; 0xbe; 0x5b; 0x82; 0x0b; 0xc7; 0xdb; 0xfc; 0x32; 0x6f; 0x86; 0x13; 0x73;
  0x00; 0x01; 0x02; 0x03]
  /\ in_check (ok (input_start 1 3) (fun s => input_add_context_extension s [1; 2; 3])) R_BAD_STATE IN_ERROR
  /\ in_check (with_ext [1; 2; 3; 4]) R_TOO_MUCH_DATA IN_ERROR
  /\ fst (with_ext [1; 2]) = R_MORE_DATA.
Proof. vm_compute. repeat split. Qed.

(** ** test_tx_ser_table.c *)
Example test_table :
  table_init 1 [] = (R_OK, []) /\ fst (table_init 1 [repeat 1 32]) = R_TOO_MANY_TOKENS
  /\ fst (table_init (TOKEN_MAX_COUNT + 1) []) = R_TOO_MANY_TOKENS
  /\ table_add 2 (repeat 1 32 ++ repeat 2 32) [] = (R_OK, [repeat 1 32; repeat 2 32])
  /\ fst (table_add 1 (repeat 1 32 ++ repeat 2 32) []) = R_TOO_MANY_TOKENS
  /\ fst (table_add 2 (repeat 1 32 ++ repeat 2 31) []) = R_BAD_TOKEN_ID
  /\ fst (table_add 2 (repeat 2 32) []) = R_MORE_DATA
  /\ table_hash_bytes 1 (snd (table_add 1 (repeat 1 32) [])) = repeat 1 33.
Proof. vm_compute. repeat split. Qed.

(** ** test_gve.c (gve_get_i8 and gve_put_i8 are not modelled), test_zigzag.c, test_safeint.c *)
Example test_gve_get :
  gve_get_u8 [1; 2] = GveOk 1 [2] /\ gve_get_u8 [] = GveErr GVE_ERR_DATA_SIZE
  /\ gve_get_u16 [0x83; 0x82; 0x01] = GveOk 16643 []
  /\ gve_get_u16 [0x84; 0x83; 0x82; 0x01] = GveErr GVE_ERR_INT_TO_BIG
  /\ gve_get_i16 [0x83; 0x82; 0x01] = GveOk (-8322)%Z []
  /\ gve_get_u32 [0x84; 0x83; 0x82; 0x01] = GveOk 2130308 []
  /\ gve_get_i32 [0x85; 0x83; 0x82; 0x01] = GveOk (-1065155)%Z []
  /\ gve_get_u64 [0x86; 0x85; 0x84; 0x83; 0x82; 0x01] = GveOk 34902966918 []
  /\ gve_get_i64 [0x87; 0x85; 0x84; 0x83; 0x82; 0x01] = GveOk (-17451483460)%Z [].
Proof. vm_compute. repeat split. Qed.
Example test_gve_put :
  gve_put_u8 1 = [1] /\ gve_put_u16 16643 = [0x83; 0x82; 0x01] /\ gve_put_i16 (-8322) = [0x83; 0x82; 0x01]
  /\ gve_put_u32 2130308 = [0x84; 0x83; 0x82; 0x01] /\ gve_put_i32 (-1065155) = [0x85; 0x83; 0x82; 0x01]
  /\ gve_put_u64 34902966918 = [0x86; 0x85; 0x84; 0x83; 0x82; 0x01]
  /\ gve_put_i64 (-17451483460) = [0x87; 0x85; 0x84; 0x83; 0x82; 0x01].
Proof. vm_compute. repeat split. Qed.
Example test_zigzag :
  map zigzag_encode_i32 [0; -1; 1; -123456; -2147483648; 2147483647]%Z
     = [0; 1; 2; 246911; 18446744073709551615; 18446744073709551614] (* (int32_t) 4294967295, widened *)
  /\ map zigzag_encode_i64 [0; -1; 1; -12345678901; -9223372036854775808; 9223372036854775807]%Z
     = [0; 1; 2; 24691357801; 18446744073709551615; 18446744073709551614]
  /\ map zigzag_decode_i32 [0; 1; 2; 246911; 4294967295; 4294967294] = [0; -1; 1; -123456; -2147483648; 2147483647]%Z
  /\ map zigzag_decode_i64 [0; 1; 2; 24691357801; 18446744073709551615; 18446744073709551614]
     = [0; -1; 1; -12345678901; -9223372036854775808; 9223372036854775807]%Z.
Proof. vm_compute. repeat split. Qed.
Example test_safeint :
  checked_add_u64 0 0 = ChkOk 0 /\ checked_add_u64 0 UINT64_MAX = ChkOk UINT64_MAX /\ checked_add_u64 1 UINT64_MAX = ChkFail
  /\ checked_add_u64 1 2 = ChkOk 3 /\ checked_sub_u64 0 0 = ChkOk 0 /\ checked_sub_u64 UINT64_MAX UINT64_MAX = ChkOk 0
  /\ checked_sub_u64 0 1 = ChkFail.
Proof. vm_compute. repeat split. Qed.

(** ** test_bip32.c *)
Definition validate (p : list N) (v : vtype) : bool := bip32_path_validate p (HARD + 44) (HARD + 429) v.
Definition H44 : N := 0x8000002C.
Definition H429 : N := 0x800001AD.
Example test_bip32_good :
  forallb (fun p => validate p V_ACCOUNT_GE3)
    [[H44; H429; HARD]; [H44; H429; HARD; HARD + 1]; [H44; H429; HARD; HARD + 1; HARD + 2]] = true
  /\ validate [H44; H429; HARD] V_ACCOUNT_E3 = true
  /\ validate [H44; H429; HARD; 0; 1] V_ADDRESS_E5 = true
  /\ forallb (fun p => validate p V_ADDRESS_GE5) [[H44; H429; HARD; 0; 1]; [H44; H429; HARD; 0; 1; 2]] = true.
Proof. vm_compute. repeat split. Qed.
Example test_bip32_bad_account :
  forallb (fun p => negb (validate p V_ACCOUNT_E3) && negb (validate p V_ACCOUNT_GE3))
    [[H44; H429]; [H44; H429; 0x80]; [HARD; H429; HARD]; [H44; HARD; HARD]; [H44; H429; HARD; 0];
     [H44; H429; HARD; 1; 2]; [H44; H429; HARD; HARD; 2]; [H44; H429; HARD; 1; HARD]] = true.
Proof. vm_compute. reflexivity. Qed.
Example test_bip32_bad_address :
  forallb (fun p => negb (validate p V_ADDRESS_E5) && negb (validate p V_ADDRESS_GE5))
    [[H44; H429]; [H44; H429; HARD]; [H44; H429; HARD; 0]; [H44; H429; HARD; HARD; 2]; [H44; H429; HARD; 3; 2];
     [H44; H429; HARD; 1; HARD]; [HARD; H429; HARD; 1; 1]; [H44; HARD; HARD; 1; 1]] = true
  /\ validate [H44; H429; HARD; 1; 1; 1] V_ADDRESS_E5 = false
  /\ validate [H44; H429; HARD; 1; 1; 1] V_ADDRESS_GE5 = true.
Proof. vm_compute. repeat split. Qed.

(** ** test_input_frame.c *)
Example test_input_frame_data_length :
  input_frame_data_length (repeat 0 42 ++ repeat 1 57) = 83
  /\ input_frame_data_length (repeat 0 58) = 0
  /\ input_frame_data_length (repeat 0 42 ++ repeat 1 56) = 0.
Proof. vm_compute. repeat split. Qed.
