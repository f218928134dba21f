(** Specification of the Kolmogorov-Smirnov test of a list of p-values. *)
From Coq Require Import ZArith Reals List Permutation Sorted.
From Flocq Require Import Core IEEE754.BinarySingleNaN.
From Verif Require Import Base DoubleModel.
Import ListNotations.
Open Scope R_scope.

(** ** Doubles *)
(** the p-values a test can deliver *)
Definition pvalue_ok (p : double) : Prop := is_finite p = true /\ 0 <= B2R p <= 1.
(** what gsl_sort promises for finite numbers *)
Definition sorts (srt : list double -> list double) : Prop := forall l, Forall (fun p => is_finite p = true) l ->
  Permutation l (srt l) /\ StronglySorted (fun a b : double => B2R a <= B2R b) (srt l).
(** the p-value of a run, whatever is left in the array *)
Definition verdict {A B} (o : outcome (A * B)) : outcome A := do r <- o ;; Ok (fst r).

(** ** The Kolmogorov-Smirnov distance from the uniform distribution *)
(** the part of the p-values that are at most [x] *)
Definition at_most (l : list R) (x : R) : R := INR (length (filter (fun p => if Rle_dec p x then true else false) l)) / INR (length l).
Definition ks_distance (l : list R) (D : R) : Prop :=
  is_lub (fun v => exists x, 0 <= x <= 1 /\ v = Rabs (at_most l x - x)) D.

(** [m] is the largest |p_i - i/(n+1)| of the p-values in ascending order,
    the first one being p_1; 0 if there are none *)
Fixpoint largest_from (i n : R) (sorted : list R) (m : R) : R :=
  match sorted with [] => m | p :: l => largest_from (i + 1) n l (Rmax m (Rabs (p - i / (n + 1)))) end.
Definition largest_offset (l : list R) (m : R) : Prop := exists s, Permutation l s /\ StronglySorted Rle s /\
  m = largest_from 1 (INR (length l)) s 0.

(** ** Matrices, given by their entries; only those with indices below [m] count *)
Fixpoint rsum (n : nat) (f : nat -> R) : R := match n with O => 0 | S n => rsum n f + f n end.
Definition mat := nat -> nat -> R.
Definition mone : mat := fun i j => if (i =? j)%nat then 1 else 0.
Definition mmul (m : nat) (X Y : mat) : mat := fun i j => rsum m (fun k => X i k * Y k j).
Fixpoint mpower (m : nat) (X : mat) (n : nat) : mat := match n with O => mone | S n => mmul m X (mpower m X n) end.

(** Marsaglia, Tsang and Wang, "Evaluating Kolmogorov's Distribution" (2003):
    with d = (k - h)/n and m = 2k - 1, the distribution of the distance is
    n!/n^n times the (k,k) entry of the n-th power of H (k counted from 1). *)
Definition mtw_H (m : nat) (h : R) : mat := fun i j =>
  if (i + 1 <? j)%nat then 0 else
  (if (j =? 0)%nat && (i =? m - 1)%nat then 1 - 2 * h ^ m + (Rmax 0 (2 * h - 1)) ^ m
   else if (j =? 0)%nat then 1 - h ^ (i + 1)
   else if (i =? m - 1)%nat then 1 - h ^ (m - j)
   else 1) / INR (fact (i + 1 - j)).
Definition mtw (n k : nat) (h : R) : R :=
  INR (fact n) / INR n ^ n * mpower (2 * k - 1)%nat (mtw_H (2 * k - 1)%nat h) n (k - 1)%nat (k - 1)%nat.
