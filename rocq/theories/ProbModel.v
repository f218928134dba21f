(** Model of libdieharder/prob.c. *)
From Coq Require Import Reals.
From Verif Require Export Base.
Open Scope N_scope.

Section Prob.
(** gsl_sf_fact: the factorial up to 170!, the largest that fits a double; for
    larger arguments GSL reports an overflow and its error handler, which
    dieharder does not replace, aborts the program (exit status 134). *)
Definition gsl_sf_fact (n : N) : outcome R :=
  if n <=? 170 then Ok (INR (fact (N.to_nat n))) else Exit 134.

(** prob.c:16-35 [binomial], in exact arithmetic; [n-k] is a difference of
    unsigned ints.  The order of the calls does not matter: both ends are
    calls of the same function. *)
Definition binomial (n k : N) (p : R) : outcome R :=
  let m := sub32 n k in
  do fn <- gsl_sf_fact n ;;
  do fk <- gsl_sf_fact k ;;
  do fm <- gsl_sf_fact m ;;
  Ok (fn * p ^ N.to_nat k * (1 - p) ^ N.to_nat m / (fk * fm))%R.
End Prob.
