(** Model of the statistic of diehard_operm5 (libdieharder/diehard_operm5.c).

    The arithmetic is a parameter (see KsModel).  Simplified: the program mixes
    doubles with the long doubles of the table; here all numbers are of one
    kind.  [Q a x] stands for gsl_sf_gamma_inc_Q(a,x).  The running totals
    tcount are written and never read, and are left out with the printing. *)
From Verif Require Export KpermModel KsModel OpermTable.
Open Scope Z_scope.

Section Stat.
Variable A : arith.
Notation T := (num A).
Variable Q : T -> T -> T.
Declare Scope num_scope.
Local Notation "x + y" := (nadd A x y) : num_scope.
Local Notation "x - y" := (nsub A x y) : num_scope.
Local Notation "x * y" := (nmul A x y) : num_scope.
Local Notation "x / y" := (ndiv A x y) : num_scope.
Delimit Scope num_scope with num.
Notation int := (nint A).

(** include/dieharder/diehard_operm5.h:40-2683 *)
Definition pseudoInv (i j : Z) : outcome T :=
  do row <- aget pseudo_inv i ;; do p <- aget row j ;; Ok (nlit A p (10 ^ 14)).

(** diehard_operm5.c:182-213, 230: the statistic before its sign is dropped. *)
Definition operm_stat (overlap : bool) (tsamples : Z) (count : list N) : outcome T :=
  let av := (int tsamples / nlit A 120 1)%num in
  let norm := if overlap then int tsamples else av in
  do x <- for_ 120 0 (fun i x => do c <- aget count i ;; aset x i (int (Z.of_N c) - av)%num) (repeat (int 0) 120) ;;
  do chisq <-
    (if overlap then
       for_ 120 0 (fun i chisq =>
         for_ 120 0 (fun j chisq =>
           do xi <- aget x i ;; do p <- pseudoInv i j ;; do xj <- aget x j ;;
           Ok (chisq + xi * p * xj)%num) chisq) (int 0)
     else
       for_ 120 0 (fun i chisq => do xi <- aget x i ;; Ok (chisq + xi * xi)%num) (int 0)) ;;
  Ok (chisq / norm)%num.

(** diehard_operm5.c:230-241: the p-value. *)
Definition operm_p (overlap : bool) (tsamples : Z) (count : list N) : outcome T :=
  do s <- operm_stat overlap tsamples count ;;
  let chisq := nabs A s in
  let ndof := if overlap then int 96 else int 119 in
  Ok (Q (ndof / int 2)%num (chisq / int 2)%num).

(** diehard_operm5.c:124-252: counts and p-value; also the position in the stream. *)
Definition diehard_operm5 (g : nat -> N) (overlap : bool) (tsamples : nat) (c : nat) : outcome (T * nat) :=
  do r <- operm_counts g overlap tsamples c ;;
  do p <- operm_p overlap (Z.of_nat tsamples) (fst r) ;;
  Ok (p, snd r).
End Stat.
