(** Model of the second chi-square test of marsaglia_tsang_gcd
    (libdieharder/marsaglia_tsang_gcd.c), that of the divisors, for any
    arithmetic. *)
From Verif Require Export VtestArith.
Open Scope N_scope.

Section GcdChisq.
Variable A : arith.
Local Notation num := (num A).
(** >= *)
Variable ge : num -> num -> bool.
(** The static [gnorm], 6.0/(PI*PI). *)
Variable gnorm : num.

(** marsaglia_tsang_gcd.c:288-296, y[i] for i > 1; Vtest_create set it to 0.0
    (Vtest.c:33-36).  [i*i] is of type unsigned int, [1.0*j*j] is not. *)
Definition gcd_expected (tsamples : Z) (gtblsize i : nat) : num :=
  if (N.of_nat i =? sub32 (N.of_nat gtblsize) 1) then
    fold_left (fun y j => nadd A y (ndiv A (nmul A (nint A tsamples) gnorm)
                                      (nmul A (nmul A (nint A 1) (nint A (Z.of_nat j))) (nint A (Z.of_nat j)))))
              (seq i (N.to_nat 100000 - i)) (nint A 0)
  else ndiv A (nmul A (nint A tsamples) gnorm) (nint A (Z.of_N (mul32 (N.of_nat i) (N.of_nat i)))).

(** marsaglia_tsang_gcd.c:281-304: the cells; [gcd] is the table of the counts,
    with gtblsize entries. *)
Definition gcd_cells (tsamples : Z) (gcd : list N) : list (num * num) :=
  map (fun i => if Nat.ltb 1 i then (nint A (Z.of_N (nth i gcd 0)), gcd_expected tsamples (length gcd) i) else (nint A 0, nint A 0))
      (seq 0 (length gcd)).

(** marsaglia_tsang_gcd.c:285, 311: cutoff 5.0, then Vtest_eval. *)
Definition gcd_chisq (tsamples : Z) (gcd : list N) : outcome (list (num * num) * num * N) :=
  Vtest_evalA A ge (gcd_cells tsamples gcd) (nint A 5) 0.
End GcdChisq.
