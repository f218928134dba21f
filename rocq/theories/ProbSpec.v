(** The probability of k successes in n independent trials, by looking at the
    first trial. *)
From Coq Require Export Reals.
Open Scope R_scope.

Fixpoint chance (p : R) (n k : nat) : R :=
  match n with
  | O => match k with O => 1 | S _ => 0 end
  | S n => (match k with O => 0 | S k => p * chance p n k end) + (1 - p) * chance p n k
  end.
