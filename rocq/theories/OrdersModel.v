(** The statistic and p-value of rgb_permutations (libdieharder/), in doubles or
    in exact arithmetic. *)
From Verif Require Export RgbModel BitStatModel.
Open Scope N_scope.

Section OrdersStat.
Variable A : arith.
Local Notation num := (num A).
(** >= *)
Variable ge : num -> num -> bool.
(** gsl_sf_gamma_inc_Q, not modelled *)
Variable gamma_inc_Q : num -> num -> num.

(** rgb_permutations.c:40-152: the counts, the cells and the p-value; the cutoff
    is 5, ndof is not preset (Vtest.c:44, 206-210). *)
Definition rgb_permutations (sort_index : list N -> list nat) (lookup : list (list nat)) (g : nat -> N) (ntuple tsamples c : nat) : outcome num :=
  do (x, _) <- permutations g sort_index lookup ntuple tsamples c ;;
  let y := ndiv A (of_N A (N.of_nat tsamples)) (of_N A (factorial (perm_size ntuple))) in
  do (_, chisq, ndof) <- Vtest_evalA A ge (map (fun x => (of_N A x, y)) x) (nint A 5) 0 ;;
  Ok (gamma_inc_Q (ndiv A (of_N A ndof) (nint A 2)) (ndiv A chisq (nint A 2))).
End OrdersStat.
