(** Model of libdieharder/rgb_kstest_test.c: the uniformity test.

    The generator is the stream [g] of what gsl_rng_uniform would return, and
    [c] the number of its values taken so far. *)
From Verif Require Export KsModel.
From Flocq Require Import IEEE754.BinarySingleNaN.
Open Scope Z_scope.

(** gsl_rng_uniform_pos (GSL rng/gsl_rng.h, called at rgb_kstest_test.c:53):
    draw until the value is not 0. *)
Fixpoint uniform_pos (fuel : nat) (g : nat -> double) (c : nat) : outcome (double * nat) :=
  match fuel with
  | O => OutOfFuel
  | S fuel => let x := g c in if deq x dzero then uniform_pos fuel g (S c) else Ok (x, S c)
  end.

(** rgb_kstest_test.c:48-57, the vector of deviates. *)
Fixpoint testvec (fuel : nat) (g : nat -> double) (tsamples : nat) (c : nat) : outcome (list double * nat) :=
  match tsamples with
  | O => Ok ([], c)
  | S t => do x <- uniform_pos fuel g c ;; do l <- testvec fuel g t (snd x) ;; Ok (fst x :: fst l, snd l)
  end.

(** The conversion of the unsigned tsamples to the int parameter of kstest and
    kstest_kuiper (rgb_kstest_test.c:64, 69). *)
Definition as_int (n : Z) : Z := let r := n mod 2 ^ 32 in if r <? 2 ^ 31 then r else r - 2 ^ 32.

(** rgb_kstest_test.c:37-86 [rgb_kstest_test]; the value stored in
    pvalues[irun].  Simplified: malloc succeeds, nothing is printed. *)
Definition rgb_kstest_test (fuel : nat) (dpow : double -> Z -> double) (dexp : double -> double)
    (srt : list double -> list double) (ks_test : N) (g : nat -> double) (tsamples c : nat) : outcome (double * nat) :=
  do v <- testvec fuel g tsamples c ;;
  let count := as_int (Z.of_nat tsamples) in
  do p <- (if (3 <=? ks_test)%N then kstest_kuiper fuel dexp srt (fst v) count
           else kstest (doubles dpow dexp) srt ks_test (fst v) count) ;;
  Ok (fst p, snd v).
