(** Specification: the variance of Vtest's statistic. *)
From Verif Require Export VtestLawSpec.
Open Scope R_scope.

Section Samples.
Context {B : Type}.
Variable omega : list B.
Variable cell : B -> nat.
Variable k n : nat.
(** the probabilities of the terms of the statistic: of the cells with enough
    expected counts, and of the others together if they have enough *)
Definition term_shares (cutoff : R) : list R :=
  map (cell_share omega cell) (filter (big omega cell n cutoff) (seq 0 k)) ++
  if Rle_dec cutoff (INR n * small_share omega cell k n cutoff) then [small_share omega cell k n cutoff] else [].
(** the variance with m terms and probability q left out; the first summand is
    that of chi-square with m-1 degrees of freedom but for the factor 1-1/n *)
Definition vtest_variance (cutoff : R) : R :=
  let m := INR (terms omega cell k n cutoff) in
  let q := left_out omega cell k n cutoff in
  2 * (m - 1 + q ^ 2) * (1 - 1 / INR n) + (lsumR (term_shares cutoff) Rinv - m ^ 2 - 4 * q * (m - 1 + q)) / INR n.
End Samples.
