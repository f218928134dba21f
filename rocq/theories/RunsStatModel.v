(** Model of the statistic of diehard_runs (libdieharder/diehard_runs.c).

    The arithmetic is a parameter (see KsModel).  [Q a x] stands for
    gsl_sf_gamma_inc_Q(a,x).  The counting is in RunsModel; the printing is left
    out. *)
From Verif Require Export RunsModel KsModel.
Open Scope Z_scope.

(** diehard_runs.c:57-64: the table a, in tenths. *)
Definition run_a : list (list Z) :=
  [[ 45294;  90449; 135680; 180910;  226150;  278920];
   [ 90449; 180970; 271390; 361870;  452340;  557890];
   [135680; 271390; 407210; 542810;  678520;  836850];
   [180910; 361870; 542810; 724140;  904700; 1115800];
   [226150; 452340; 678520; 904700; 1132620; 1394760];
   [278920; 557890; 836850; 1115800; 1394760; 1728600]].
(** diehard_runs.c:69-75: the table b, numerators and denominators. *)
Definition run_b : list (Z * Z) := [(1, 6); (5, 24); (11, 120); (19, 720); (29, 5040); (1, 840)].

Section Stat.
Variable A : arith.
Notation T := (num A).
Variable Q : T -> T -> T.
Declare Scope num_scope.
Local Notation "x + y" := (nadd A x y) : num_scope.
Local Notation "x - y" := (nsub A x y) : num_scope.
Local Notation "x * y" := (nmul A x y) : num_scope.
Local Notation "x / y" := (ndiv A x y) : num_scope.
Delimit Scope num_scope with num.
Notation int := (nint A).

Definition a_ (i j : Z) : outcome T := do row <- aget run_a i ;; do p <- aget row j ;; Ok (nlit A p 10).
Definition b_ (i : Z) : outcome T := do nd <- aget run_b i ;; Ok (int (fst nd) / int (snd nd))%num.

(** diehard_runs.c:150-163: uv, or dv, from the table of its runs. *)
Definition runs_stat (tsamples : Z) (runs : list N) : outcome T :=
  do v <- for_ 6 0 (fun i v =>
    for_ 6 0 (fun j v =>
      do ri <- aget runs i ;; do bi <- b_ i ;; do rj <- aget runs j ;; do bj <- b_ j ;; do a <- a_ i j ;;
      Ok (v + (int (Z.of_N ri) - int tsamples * bi) * (int (Z.of_N rj) - int tsamples * bj) * a)%num) v) (int 0) ;;
  Ok (v / int tsamples)%num.

(** diehard_runs.c:168-169 *)
Definition runs_p (v : T) : T := Q (int 3) (v / int 2)%num.

(** diehard_runs.c:77-178: the two p-values.  The numbers drawn: the first, and
    the tsamples - 1 others. *)
Definition diehard_runs (first : N) (rest : list N) : outcome (T * T) :=
  do ud <- count_runs first rest ;;
  let tsamples := Z.of_nat (S (length rest)) in
  do uv <- runs_stat tsamples (fst ud) ;;
  do dv <- runs_stat tsamples (snd ud) ;;
  Ok (runs_p uv, runs_p dv).
End Stat.
