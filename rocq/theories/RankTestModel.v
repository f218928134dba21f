(** Model of the rank tests libdieharder/diehard_rank_32x32.c and
    diehard_rank_6x8.c as a whole.  [w i] is the i-th word returned by
    get_rand_bits_uint(32,0xffffffff,rng) in the run. *)
From Verif Require Export RankModel DoubleModel Tally.
Open Scope Z_scope.

(** diehard_rank_32x32.c:75-82: the cells from 29 on, as (digits, scale). *)
Definition rank32_table : list (Z * Z) :=
  [(52854502, 10 ^ 10); (1283502644, 10 ^ 10); (5775761902, 10 ^ 10); (2887880952, 10 ^ 10)].
(** diehard_rank_6x8.c:64-73: the cells from 2 on. *)
Definition rank6_table : list (Z * Z) :=
  [(149858, 10 ^ 12); (808926, 10 ^ 10); (936197, 10 ^ 8); (217439, 10 ^ 6); (773118, 10 ^ 6)].
(** The vector vtest.y: Vtest_create has set all cells to 0, and the loop before
    the assignments sets vtest.y[0] to 0 again and again. *)
Definition rank_expected (lo : nat) (table : list (Z * Z)) (tsamples : N) : list double :=
  repeat dzero lo ++ map (fun p => dmul (d_of_Z (Z.of_N tsamples)) (d_lit (fst p) (snd p))) table.

Section Run.
Variable w : nat -> N.
(** the loop over the samples, with [n] of them left and [c] words drawn *)
Fixpoint rank_samples (nrows : nat) (ncols lo : Z) (n : nat) (x : list N) (c : nat) : outcome (list N) :=
  match n with
  | O => Ok x
  | S n =>
    do x <- rank_sample (Z.of_nat nrows) ncols lo (map w (seq c nrows)) x ;;
    rank_samples nrows ncols lo n x (c + nrows)
  end.
(** diehard_rank_32x32.c:55-121 and diehard_rank_6x8.c:55-108: the tables when
    they are handed to Vtest_eval.  The index of the sample is an int compared
    with an unsigned count. *)
Definition diehard_rank_32x32 (tsamples : N) : outcome (list N * list double) :=
  if (2 ^ 31 <=? tsamples)%N then UB "int overflow" else
  do x <- rank_samples 32 32 29 (N.to_nat tsamples) (repeat 0%N 33) 0 ;;
  Ok (x, rank_expected 29 rank32_table tsamples).
Definition diehard_rank_6x8 (tsamples : N) : outcome (list N * list double) :=
  if (2 ^ 31 <=? tsamples)%N then UB "int overflow" else
  do x <- rank_samples 6 8 2 (N.to_nat tsamples) (repeat 0%N 7) 0 ;;
  Ok (x, rank_expected 2 rank6_table tsamples).
End Run.
