(** Specification for rgb_lagged_sums. *)
From Coq Require Export Reals.
From Verif Require Export DctSpec MissingLawSpec.
Open Scope R_scope.

(** The sum of n of the (lag+1)n words of l, each divided by d: words lag,
    lag+(lag+1), lag+2(lag+1), ... *)
Definition lagged_sum (d : R) (lag n : nat) (l : list N) : R := rsum n (fun t => word l (t * (lag + 1) + lag) / d).
(** Its expected value and variance when all words of w bits are equally likely. *)
Definition lagged_mean (d : R) (w : N) (n : nat) : R := INR n * ((2 ^ N.to_nat w - 1) / 2) / d.
Definition lagged_variance (d : R) (w : N) (n : nat) : R := INR n * ((4 ^ N.to_nat w - 1) / 12) / d ^ 2.
