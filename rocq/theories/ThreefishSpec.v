From Coq Require Export List NArith.
Export ListNotations.
Open Scope N_scope.

(** * Threefish-512 as defined in "The Skein Hash Function Family", version 1.1,
    sections 3.3 and 3.3.1: the revision whose rotation constants and parity word the
    source uses. Blocks and keys are lists of eight 64-bit words, tweaks of two. *)
Definition plus64 (x y : N) : N := (x + y) mod 2 ^ 64.
Definition rotate_left (x n : N) : N := N.lor (N.shiftl x n mod 2 ^ 64) (N.shiftr x (64 - n)).
(** Table 4: the rotation constants for eight words, indexed by round mod 8 and pair. *)
Definition rotations : list (list N) :=
  [ [38; 30; 50; 53]; [48; 20; 43; 31]; [34; 14; 15; 27]; [26; 12; 58; 7];
    [33; 49; 8; 42]; [39; 27; 41; 14]; [29; 26; 11; 9]; [33; 51; 39; 35] ].
Definition rotation (d j : nat) : N := nth j (nth (Nat.modulo d 8) rotations []) 0.
(** Table 3: the word permutation for eight words. *)
Definition permutation : list nat := [2; 1; 4; 7; 6; 5; 0; 3]%nat.

Definition mix (d j : nat) (x0 x1 : N) : list N :=
  [plus64 x0 x1; N.lxor (rotate_left x1 (rotation d j)) (plus64 x0 x1)].
Definition mix_layer (d : nat) (v : list N) : list N :=
  flat_map (fun j => mix d j (nth (2 * j) v 0) (nth (2 * j + 1) v 0)) (seq 0 4).
Definition permute (v : list N) : list N := map (fun i => nth i v 0) permutation.

Section Keyed.
Variables key tweak : list N.
(** The extended key and tweak. *)
Definition key_word (i : nat) : N :=
  if Nat.ltb i 8 then nth i key 0 else fold_left N.lxor key 0x5555555555555555.
Definition tweak_word (i : nat) : N :=
  if Nat.ltb i 2 then nth i tweak 0 else N.lxor (nth 0 tweak 0) (nth 1 tweak 0).
Definition subkey (s i : nat) : N :=
  let k := key_word (Nat.modulo (s + i) 9) in
  match i with
  | 5%nat => plus64 k (tweak_word (Nat.modulo s 3))
  | 6%nat => plus64 k (tweak_word (Nat.modulo (s + 1) 3))
  | 7%nat => plus64 k (N.of_nat s)
  | _ => k
  end.
Definition add_subkey (s : nat) (v : list N) : list N := map (fun i => plus64 (nth i v 0) (subkey s i)) (seq 0 8).
Definition round (v : list N) (d : nat) : list N :=
  permute (mix_layer d (if Nat.eqb (Nat.modulo d 4) 0 then add_subkey (Nat.div d 4) v else v)).
Definition threefish (v : list N) : list N := add_subkey 18 (fold_left round (seq 0 72) v).
End Keyed.

(** Words from bytes and back, low byte first. *)
Fixpoint le_value (l : list N) : N := match l with [] => 0 | b :: l => b + 256 * le_value l end.
Definition le_words (l : list N) : list N := map (fun i => le_value (firstn 8 (skipn (8 * i) l))) (seq 0 (Nat.div (length l) 8)).
Fixpoint le_bytes (n : nat) (x : N) : list N := match n with O => [] | S n => x mod 256 :: le_bytes n (x / 256) end.
Definition bytes_of (v : list N) : list N := flat_map (le_bytes 8) v.

(** ** The generator: output feedback from a block holding the seed, each
    block giving sixteen 32-bit words. The key is the bytes 64 .. 127; the tweak is the
    bytes 112 .. 127 for the first block and has its first word set to 112 from then on. *)
Definition byte_run (first n : nat) : list N := map N.of_nat (seq first n).
Fixpoint feedback (seed : N) (n : nat) : list N :=
  match n with
  | O => threefish (le_words (byte_run 64 64)) (le_words (byte_run 112 16)) [seed; 0; 0; 0; 0; 0; 0; 0]
  | S n => threefish (le_words (byte_run 64 64)) [112; nth 1 (le_words (byte_run 112 16)) 0] (feedback seed n)
  end.
Definition feedback_word (seed : N) (n : nat) : N :=
  let w := nth (Nat.div (Nat.modulo n 16) 2) (feedback seed (Nat.div n 16)) 0 in
  if Nat.even n then w mod 2 ^ 32 else w / 2 ^ 32.
