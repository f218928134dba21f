(** The statistic and p-value of dab_bytedistrib (libdieharder/), in doubles or
    in exact arithmetic. *)
From Verif Require Export RgbModel BitStatModel.
Open Scope N_scope.

Section BytesStat.
Variable A : arith.
Local Notation num := (num A).
(** >= *)
Variable ge : num -> num -> bool.
(** gsl_sf_gamma_inc_Q, not modelled *)
Variable gamma_inc_Q : num -> num -> num.

(** dab_bytedistrib.c:33-97: the counts, the cells and the p-value; ndof is
    preset, the cutoff is Vtest_create's 5 (Vtest.c:41,210).  [tsamples] and the
    counts are unsigned ints, at most 2^32 - 1. *)
Definition dab_bytedistrib (g : nat -> N) (w : N) (tsamples c : nat) : outcome num :=
  do (counts, _) <- bytedistrib g w tsamples c ;;
  let y := ndiv A (of_N A (N.of_nat tsamples)) (nint A 256) in
  do (_, chisq, ndof) <- Vtest_evalA A ge (map (fun x => (of_N A x, y)) counts) (nint A 5) (255 * 9) ;;
  Ok (gamma_inc_Q (ndiv A (of_N A ndof) (nint A 2)) (ndiv A chisq (nint A 2))).
End BytesStat.
