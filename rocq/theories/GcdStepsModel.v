(** Model of the first chi-square test of marsaglia_tsang_gcd
    (libdieharder/marsaglia_tsang_gcd.c), that of the numbers of divisions, for
    any arithmetic. *)
From Verif Require Export VtestArith.
Open Scope N_scope.

(** marsaglia_tsang_gcd.c:129-136: the table [kprob], in units of 1e-11. *)
Definition kprob : list Z := [
  0; 539; 6077; 48421; 294869; 1443266;
  5908569; 20658047; 62764766; 167993762; 399620143; 851629626;
  1635214339; 2843154488; 4493723812; 6476525706; 8533638862; 10300002140;
  11407058851; 11604146948; 10853040184; 9336837411; 7389607162; 5380182248;
  3601960159; 2215902902; 1251328472; 647884418; 306981507; 132828179;
  52381841; 18764452; 6084138; 1779885; 466795; 109504;
  22668; 4104; 642; 84; 14]%Z.

Section GcdSteps.
Variable A : arith.
Local Notation num := (num A).
(** >= *)
Variable ge : num -> num -> bool.

(** marsaglia_tsang_gcd.c:270-276: the cells; [ktbl] is the table of the counts. *)
Definition steps_cells (tsamples : Z) (ktbl : list N) : list (num * num) :=
  map (fun i => (nint A (Z.of_N (nth i ktbl 0)), nmul A (nint A tsamples) (nlit A (nth i kprob 0%Z) (10 ^ 11)))) (seq 0 41).

(** marsaglia_tsang_gcd.c:269, 310: cutoff 5.0, then Vtest_eval. *)
Definition steps_chisq (tsamples : Z) (ktbl : list N) : outcome (list (num * num) * num * N) :=
  Vtest_evalA A ge (steps_cells tsamples ktbl) (nint A 5) 0.
End GcdSteps.
