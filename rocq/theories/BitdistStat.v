(** The statistics and the p-value of rgb_bitdist (libdieharder/rgb_bitdist.c),
    in doubles or in exact arithmetic. *)
From Verif Require Export BitdistModel BitStatModel.
Open Scope N_scope.

Section BitdistStat.
Variable A : arith.
Local Notation num := (num A).
(** >= *)
Variable ge : num -> num -> bool.
(** gsl_sf_gamma_inc_Q and gsl_ran_binomial_pdf(k, p, n), not modelled *)
Variable gamma_inc_Q : num -> num -> num.
Variable binomial_pdf : nat -> num -> nat -> num.

(** rgb_bitdist.c:136, 193-212: the expected counts, the same for every value. *)
Definition bd_expected (nb : N) (tsamples : nat) : list num :=
  map (fun b => nmul A (of_N A (N.of_nat tsamples)) (binomial_pdf b (ndiv A (nint A 1) (of_N A (2 ^ nb))) 64)) (seq 0 65).

(** Vtest.c:56-219 with the cutoff 20 (rgb_bitdist.c:199); the entries of x are
    exact integers. *)
Definition bd_eval (nb : N) (tsamples : nat) (row : list Z) : outcome num :=
  do (_, chisq, ndof) <- Vtest_evalA A ge (combine (map (nint A) row) (bd_expected nb tsamples)) (nint A 20) 0 ;;
  Ok (gamma_inc_Q (ndiv A (of_N A ndof) (nint A 2)) (ndiv A chisq (nint A 2))).

(** rgb_bitdist.c:287-322: round [i] and the following ones of the loop over the
    values; all statistics are evaluated, and that of number ri is kept. *)
Fixpoint bd_keep (nb : N) (tsamples : nat) (ri : N) (rows : list (list Z)) (i : N) (pvalue : num) : outcome num :=
  match rows with
  | [] => Ok pvalue
  | row :: rows =>
    do p <- bd_eval nb tsamples row ;;
    bd_keep nb tsamples ri rows (i + 1) (if i =? ri then p else pvalue)
  end.

(** rgb_bitdist.c:63-329.  [ri] is the result of gsl_rng_uniform_int(rng,
    value_max) (line 286), [pvalue] the former content of pvalues[irun]. *)
Definition rgb_bitdist (v : nat -> N) (nb : N) (tsamples c : nat) (ri : N) (pvalue : num) : outcome num :=
  do (vt, _) <- bitdist v nb tsamples c ;;
  bd_keep nb tsamples ri vt 0 pvalue.
End BitdistStat.
