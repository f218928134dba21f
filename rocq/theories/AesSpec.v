(** The Advanced Encryption Standard (FIPS 197), written from the standard:
    arithmetic in GF(2^8), the S-box as inversion followed by the affine map,
    the round transformations on a 4x4 state, the key expansion and the cipher
    and inverse cipher. *)
From Coq Require Import NArith List Bool.
Import ListNotations.
Open Scope N_scope.

(** ** GF(2^8), FIPS 197 section 4 *)
(** Multiplication by x modulo x^8+x^4+x^3+x+1. *)
Definition xtime (a : N) : N := if a <? 128 then 2 * a else N.lxor (2 * a) 0x11b.
Fixpoint gmul_n (n : nat) (a b : N) : N :=
  match n with
  | O => 0
  | S n => N.lxor (if N.odd a then b else 0) (gmul_n n (N.div2 a) (xtime b))
  end.
Definition gmul (a b : N) : N := gmul_n 8 a b.
(** Inverse (0 for 0): x^254 = x^2 x^4 ... x^128. *)
Definition ginv (x : N) : N :=
  let x2 := gmul x x in let x4 := gmul x2 x2 in let x8 := gmul x4 x4 in
  let x16 := gmul x8 x8 in let x32 := gmul x16 x16 in let x64 := gmul x32 x32 in
  let x128 := gmul x64 x64 in
  gmul x2 (gmul x4 (gmul x8 (gmul x16 (gmul x32 (gmul x64 x128))))).

(** ** S-box, section 5.1.1 and 5.3.2 *)
Definition bits8 (f : nat -> bool) : N :=
  fold_right (fun i acc => N.b2n (f i) * 2 ^ N.of_nat i + acc) 0 (seq 0 8).
Definition bit (x : N) (i : nat) : bool := N.testbit x (N.of_nat (Nat.modulo i 8)).
Definition affine (b : N) : N :=
  bits8 (fun i => xorb (bit b i) (xorb (bit b (i + 4)) (xorb (bit b (i + 5)) (xorb (bit b (i + 6)) (xorb (bit b (i + 7)) (bit 0x63 i)))))).
Definition inv_affine (b : N) : N :=
  bits8 (fun i => xorb (bit b (i + 2)) (xorb (bit b (i + 5)) (xorb (bit b (i + 7)) (bit 0x05 i)))).
Definition sbox (x : N) : N := affine (ginv x).
Definition inv_sbox (y : N) : N := ginv (inv_affine y).

(** ** State: four columns of four bytes *)
Definition col : Type := N * N * N * N.
Definition state : Type := col * col * col * col.
Definition col_map (f : N -> N) (c : col) : col := let '(a, b, c, d) := c in (f a, f b, f c, f d).
Definition st_map (f : col -> col) (s : state) : state := let '(a, b, c, d) := s in (f a, f b, f c, f d).
Definition col_xor (x y : col) : col :=
  let '(a, b, c, d) := x in let '(a', b', c', d') := y in (N.lxor a a', N.lxor b b', N.lxor c c', N.lxor d d').
Definition st_xor (x y : state) : state :=
  let '(a, b, c, d) := x in let '(a', b', c', d') := y in (col_xor a a', col_xor b b', col_xor c c', col_xor d d').
(** The block is read column by column (section 3.4). *)
Definition block_state (l : list N) : state :=
  let n k := nth k l 0 in
  ((n 0, n 1, n 2, n 3), (n 4, n 5, n 6, n 7), (n 8, n 9, n 10, n 11), (n 12, n 13, n 14, n 15))%nat.
Definition col_list (c : col) : list N := let '(a, b, c, d) := c in [a; b; c; d].
Definition state_block (s : state) : list N :=
  let '(a, b, c, d) := s in col_list a ++ col_list b ++ col_list c ++ col_list d.

(** ** Round transformations, sections 5.1 and 5.3 *)
Definition sub_bytes (s : state) : state := st_map (col_map sbox) s.
Definition inv_sub_bytes (s : state) : state := st_map (col_map inv_sbox) s.
(** Row r moves r columns to the left. *)
Definition shift_rows (s : state) : state :=
  let '((a0, a1, a2, a3), (b0, b1, b2, b3), (c0, c1, c2, c3), (d0, d1, d2, d3)) := s in
  ((a0, b1, c2, d3), (b0, c1, d2, a3), (c0, d1, a2, b3), (d0, a1, b2, c3)).
Definition inv_shift_rows (s : state) : state :=
  let '((a0, a1, a2, a3), (b0, b1, b2, b3), (c0, c1, c2, c3), (d0, d1, d2, d3)) := s in
  ((a0, d1, c2, b3), (b0, a1, d2, c3), (c0, b1, a2, d3), (d0, c1, b2, a3)).
(** Column times the circulant matrix with first row (p, q, r, s). *)
Definition mix_col (p q r s : N) (x : col) : col :=
  let '(a, b, c, d) := x in
  let dot p q r s := N.lxor (gmul p a) (N.lxor (gmul q b) (N.lxor (gmul r c) (gmul s d))) in
  (dot p q r s, dot s p q r, dot r s p q, dot q r s p).
Definition mix_columns (s : state) : state := st_map (mix_col 2 3 1 1) s.
Definition inv_mix_columns (s : state) : state := st_map (mix_col 0x0e 0x0b 0x0d 0x09) s.

(** ** Key expansion, section 5.2 *)
Fixpoint rcon_power (n : nat) : N := match n with O => 1 | S n => xtime (rcon_power n) end.
Definition rot_word (c : col) : col := let '(a, b, c, d) := c in (b, c, d, a).
Definition sub_word (c : col) : col := col_map sbox c.
Definition KeySchedule (Nk : nat) (key : list N) (W : nat -> col) : Prop :=
  (forall i, (i < Nk)%nat -> W i = (nth (4 * i) key 0, nth (4 * i + 1) key 0, nth (4 * i + 2) key 0, nth (4 * i + 3) key 0)) /\
  forall i, (Nk <= i)%nat ->
    W i = col_xor (W (i - Nk)%nat)
      (if Nat.eqb (Nat.modulo i Nk) 0 then col_xor (sub_word (rot_word (W (i - 1)%nat))) (rcon_power (Nat.div i Nk - 1), 0, 0, 0)
       else if Nat.ltb 6 Nk && Nat.eqb (Nat.modulo i Nk) 4 then sub_word (W (i - 1)%nat)
       else W (i - 1)%nat).

(** ** Cipher and inverse cipher, figures 5 and 12 *)
Definition round_key (W : nat -> col) (r : nat) : state := (W (4 * r), W (4 * r + 1), W (4 * r + 2), W (4 * r + 3))%nat.
Fixpoint rounds (W : nat -> col) (r n : nat) (s : state) : state :=
  match n with
  | O => s
  | S n => rounds W (S r) n (st_xor (mix_columns (shift_rows (sub_bytes s))) (round_key W r))
  end.
Definition cipher (Nr : nat) (W : nat -> col) (s : state) : state :=
  st_xor (shift_rows (sub_bytes (rounds W 1 (Nr - 1) (st_xor s (round_key W 0))))) (round_key W Nr).
(** Rounds n, n-1, ..., 1. *)
Fixpoint inv_rounds (W : nat -> col) (n : nat) (s : state) : state :=
  match n with
  | O => s
  | S m => inv_rounds W m (inv_mix_columns (st_xor (inv_sub_bytes (inv_shift_rows s)) (round_key W n)))
  end.
Definition inv_cipher (Nr : nat) (W : nat -> col) (s : state) : state :=
  st_xor (inv_sub_bytes (inv_shift_rows (inv_rounds W (Nr - 1) (st_xor s (round_key W Nr))))) (round_key W 0).

(** ** Output feedback: the key stream is the iterated encryption of the zero
    block, cut into words, low byte first. *)
Fixpoint ofb_state (Nr : nat) (W : nat -> col) (n : nat) : state :=
  match n with O => block_state (repeat 0 16) | S n => cipher Nr W (ofb_state Nr W n) end.
Definition le_word (l : list N) (k : nat) : N :=
  nth k l 0 + 2 ^ 8 * nth (k + 1)%nat l 0 + 2 ^ 16 * nth (k + 2)%nat l 0 + 2 ^ 24 * nth (k + 3)%nat l 0.
Definition ofb_word (Nr : nat) (W : nat -> col) (n : nat) : N :=
  le_word (state_block (ofb_state Nr W (Nat.div n 4 + 1)%nat)) (4 * Nat.modulo n 4)%nat.
