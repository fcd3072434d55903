(** BLAKE2b-256 as RFC 7693 describes it, as a function of the whole message. *)
From Coq Require Export List NArith.
Export ListNotations.
Open Scope N_scope.

(** Words are below 2^64.  Rotation to the right. *)
Definition W : N := 2 ^ 64.
Definition rot (w n : N) : N := w / 2 ^ n + (w mod 2 ^ n) * 2 ^ (64 - n).
(** Little-endian words of a string of bytes, and the bytes of a word. *)
Fixpoint le (l : list N) : N := match l with [] => 0 | b :: t => b + 256 * le t end.
Definition le_word (l : list N) (i : nat) : N := le (firstn 8 (skipn (8 * i)%nat l)).
Fixpoint word_le (n : nat) (w : N) : list N := match n with O => [] | S k => w mod 256 :: word_le k (w / 256) end.

Definition IV : list N :=
  [0x6A09E667F3BCC908; 0xBB67AE8584CAA73B; 0x3C6EF372FE94F82B; 0xA54FF53A5F1D36F1;
   0x510E527FADE682D1; 0x9B05688C2B3E6C1F; 0x1F83D9ABFB41BD6B; 0x5BE0CD19137E2179].
Definition SIGMA : list (list nat) := ([
  [0; 1; 2; 3; 4; 5; 6; 7; 8; 9; 10; 11; 12; 13; 14; 15];
  [14; 10; 4; 8; 9; 15; 13; 6; 1; 12; 0; 2; 11; 7; 5; 3];
  [11; 8; 12; 0; 5; 2; 15; 13; 10; 14; 3; 6; 7; 1; 9; 4];
  [7; 9; 3; 1; 13; 12; 11; 14; 2; 6; 5; 10; 4; 0; 15; 8];
  [9; 0; 5; 7; 2; 4; 10; 15; 14; 1; 11; 12; 6; 8; 3; 13];
  [2; 12; 6; 10; 0; 11; 8; 3; 4; 13; 7; 5; 15; 14; 1; 9];
  [12; 5; 1; 15; 14; 13; 4; 10; 0; 7; 6; 3; 9; 2; 8; 11];
  [13; 11; 7; 14; 12; 1; 3; 9; 5; 0; 15; 4; 8; 6; 2; 10];
  [6; 15; 14; 9; 11; 3; 0; 8; 12; 2; 13; 7; 1; 4; 10; 5];
  [10; 2; 8; 4; 7; 6; 1; 5; 15; 11; 9; 14; 3; 12; 13; 0]])%nat.

(** 3.1: mixing.  [at_ v i x]: v with x at place i. *)
Fixpoint at_ (v : list N) (i : nat) (x : N) : list N :=
  match v, i with
  | [], _ => []
  | _ :: t, O => x :: t
  | y :: t, S k => y :: at_ t k x
  end.
Definition mix (v : list N) (a b c d : nat) (x y : N) : list N :=
  let v := at_ v a ((nth a v 0 + nth b v 0 + x) mod W) in
  let v := at_ v d (rot (N.lxor (nth d v 0) (nth a v 0)) 32) in
  let v := at_ v c ((nth c v 0 + nth d v 0) mod W) in
  let v := at_ v b (rot (N.lxor (nth b v 0) (nth c v 0)) 24) in
  let v := at_ v a ((nth a v 0 + nth b v 0 + y) mod W) in
  let v := at_ v d (rot (N.lxor (nth d v 0) (nth a v 0)) 16) in
  let v := at_ v c ((nth c v 0 + nth d v 0) mod W) in
  at_ v b (rot (N.lxor (nth b v 0) (nth c v 0)) 63).
(** 3.2: the compression function of chain value [h], block words [m], number of bytes so
    far [t] and the flag of the last block. *)
Definition a_round (m v : list N) (i : nat) : list N :=
  let s k := nth (nth k (nth (Nat.modulo i 10) SIGMA []) 0%nat) m 0 in
  fold_left (fun v '(a, b, c, d, k) => mix v a b c d (s (2 * k)%nat) (s (2 * k + 1)%nat))
    [(0, 4, 8, 12, 0); (1, 5, 9, 13, 1); (2, 6, 10, 14, 2); (3, 7, 11, 15, 3);
     (0, 5, 10, 15, 4); (1, 6, 11, 12, 5); (2, 7, 8, 13, 6); (3, 4, 9, 14, 7)]%nat v.
Definition F (h m : list N) (t : N) (last : bool) : list N :=
  let v := h ++ IV in
  let v := at_ v 12 (N.lxor (nth 12 v 0) (t mod W)) in
  let v := at_ v 13 (N.lxor (nth 13 v 0) ((t / W) mod W)) in
  let v := if last then at_ v 14 (N.lxor (nth 14 v 0) (W - 1)) else v in
  let v := fold_left (a_round m) (seq 0 12) v in
  map (fun i => N.lxor (nth i h 0) (N.lxor (nth i v 0) (nth (i + 8)%nat v 0))) (seq 0 8).

(** 3.3, without key, for digests of [nn] bytes: the message is cut into blocks of 128 bytes, the
    last one padded with zeros; there is at least one. *)
Definition block (msg : list N) (i : nat) : list N :=
  let b := firstn 128 (skipn (128 * i)%nat msg) in b ++ repeat 0 (128 - length b)%nat.
Definition block_words (msg : list N) (i : nat) : list N := map (le_word (block msg i)) (seq 0 16).
Definition blocks_count (msg : list N) : nat := Nat.max 1 (Nat.div (length msg + 127) 128).
Definition h0 (nn : N) : list N := at_ IV 0 (N.lxor (nth 0 IV 0) (N.lxor 0x01010000 nn)).
Definition blake2b (nn : N) (msg : list N) : list N :=
  let dd := blocks_count msg in
  let h := fold_left (fun h i => F h (block_words msg i) (N.of_nat (128 * (i + 1))) false) (seq 0 (dd - 1)%nat) (h0 nn) in
  let h := F h (block_words msg (dd - 1)%nat) (N.of_nat (length msg)) true in
  firstn (N.to_nat nn) (flat_map (word_le 8) h).
