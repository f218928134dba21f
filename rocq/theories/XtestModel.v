(** Model of Xtest_eval and of the statistics of the tests that count missing
    words, in doubles or in exact arithmetic. *)
From Verif Require Export MissingModel KsModel.
Open Scope Z_scope.

Section Xtest.
Variable A : arith.
Local Notation num := (num A).
(** gsl_cdf_gaussian_P, not modelled *)
Variable gaussian_P : num -> num -> num.

(** include/dieharder/Xtest.h: the point, its expected value and standard
    deviation.  npts and p are not read by Xtest_eval. *)
Record Xtest := { xt_x : num; xt_y : num; xt_sigma : num }.

(** Xtest.c:28-44 *)
Definition Xtest_eval (t : Xtest) : num := gaussian_P (nsub A (xt_y t) (xt_x t)) (xt_sigma t).

(** diehard_opso.c:74-75 *)
Definition opso_y : num := nlit A 1419093299550069 (10 ^ 10).
Definition opso_sigma : num := nlit A 2904622634038 (10 ^ 10).
(** diehard_oqso.c:60-61 *)
Definition oqso_y : num := nlit A 1419096005321316 (10 ^ 10).
Definition oqso_sigma : num := nlit A 2946558723658 (10 ^ 10).
(** diehard_dna.c:83-84 *)
Definition dna_y : num := nlit A 1419104026047629 (10 ^ 10).
Definition dna_sigma : num := nlit A 3372901506904 (10 ^ 10).
(** dab_opso2.c:74-77, both numbers of holes *)
Definition opso2_y : num := nlit A 307285393182468 (10 ^ 9).
Definition opso2_sigma : num := nlit A 528341514924662 (10 ^ 12).

(** The counts in doubles: sums of ones or converted integers below 2^53. *)
Definition xtest (y sigma : num) (holes : N) : Xtest := {| xt_x := nint A (Z.of_N holes); xt_y := y; xt_sigma := sigma |}.

(** diehard_opso.c:42-150, without the output *)
Definition diehard_opso (g : nat -> N) (tsamples c : nat) : outcome num :=
  do r <- opso_missing g tsamples c ;; Ok (Xtest_eval (xtest opso_y opso_sigma (fst r))).
(** diehard_oqso.c:39-137, without the output *)
Definition diehard_oqso (g : nat -> N) (tsamples c : nat) : outcome num :=
  do r <- oqso_missing g tsamples c ;; Ok (Xtest_eval (xtest oqso_y oqso_sigma (fst r))).
(** diehard_dna.c:44-238, without the output; w is rmax_bits *)
Definition diehard_dna (g : nat -> N) (w : N) (tsamples c : nat) : outcome num :=
  do r <- dna_missing g w tsamples c ;; Ok (Xtest_eval (xtest dna_y dna_sigma (fst r))).
(** dab_opso2.c:48-134; the number of samples is set by the test *)
Definition dab_opso2 (rmax_bits : N) (g : nat -> N) (c : nat) : outcome (num * num) :=
  if (rmax_bits <? 24)%N then Ok (nlit A 5 10, nlit A 5 10)
  else do r <- opso2_missing g (N.to_nat (2 ^ 26)) c ;;
    Ok (Xtest_eval (xtest opso2_y opso2_sigma (fst (fst r))), Xtest_eval (xtest opso2_y opso2_sigma (snd (fst r)))).
End Xtest.
