(** The statistic and p-value of rgb_lagged_sums (libdieharder/), in doubles or
    in exact arithmetic. *)
From Verif Require Export RgbModel XtestModel.
Open Scope Z_scope.

Section Lagged.
Variable A : arith.
Local Notation num := (num A).
(** gsl_cdf_gaussian_P, not modelled *)
Variable gaussian_P : num -> num -> num.

(** gsl_rng_uniform of the generators of dieharder: rng_file_input.c:194-197,
    rng_file_input_raw.c:87-90, rng_stdin_input_raw.c:31-34, rng_XOR.c:51-54 and
    others divide the number by the double UINT_MAX, whatever its width. *)
Definition uniform32 (x : N) : num := ndiv A (nint A (Z.of_N x)) (nint A (2 ^ 32 - 1)).
(** The usual get_double of a generator of the GSL with 2^w values. *)
Definition uniform_gsl (w : N) (x : N) : num := ndiv A (nint A (Z.of_N x)) (nint A (2 ^ Z.of_N w)).

(** rgb_lagged_sums.c:40-90, without the output; [u] are the results of
    gsl_rng_uniform, lag is ntuple. *)
Definition lagged_xtest (u : nat -> num) (lag tsamples c : nat) : Xtest A :=
  {| xt_x := fst (lagged (nadd A) u lag tsamples (nint A 0) c);
     xt_y := nmul A (nint A (Z.of_nat tsamples)) (nlit A 5 10);
     xt_sigma := nsqrt A (ndiv A (nint A (Z.of_nat tsamples)) (nint A 12)) |}.
Definition rgb_lagged_sums (u : nat -> num) (lag tsamples c : nat) : num := Xtest_eval A gaussian_P (lagged_xtest u lag tsamples c).
End Lagged.
