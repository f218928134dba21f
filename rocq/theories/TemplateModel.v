(** Model of the example test, number 600 (dieharder/user_template.c), with the
    part of create_test (libdieharder/std_test.c) it relies on, and of the call
    of rgb_lagged_sums for comparison. *)
From Verif Require Export LaggedModel.
Open Scope N_scope.

(** The part of struct Test used here, and the options -a, -t, -n and -x. *)
Record test := { t_tsamples : N; t_ntuple : N }.
Record options := { o_all : bool; o_tsamples : N; o_ntuple : N; o_x : double }.

(** std_test.c:82-86 and 95-96. *)
Definition new_test (o : options) (tsamples_std : N) : test :=
  {| t_tsamples := if o_all o || (o_tsamples o =? 0) then tsamples_std else o_tsamples o; t_ntuple := 0 |}.

Section Template.
Variable A : arith.
(** gsl_cdf_gaussian_P, not modelled *)
Variable gaussian_P : KsModel.num A -> KsModel.num A -> KsModel.num A.
(** the results of gsl_rng_uniform *)
Variable u : nat -> KsModel.num A.

(** user_template.c:75-124: the p-value and the number of the next draw. *)
Definition user_template (t : test) (c : nat) : KsModel.num A * nat :=
  let lag := t_ntuple t in
  (Xtest_eval A gaussian_P (lagged_xtest A u (N.to_nat lag) (N.to_nat (t_tsamples t)) c),
   snd (lagged (nadd A) u (N.to_nat lag) (N.to_nat (t_tsamples t)) (nint A 0) c)).

(** rgb_lagged_sums.c:50-51: here ntuple is set first. *)
Definition rgb_lagged_sums_test (o : options) (t : test) (c : nat) : KsModel.num A * nat :=
  let t := {| t_tsamples := t_tsamples t; t_ntuple := o_ntuple o |} in
  let lag := t_ntuple t in
  (Xtest_eval A gaussian_P (lagged_xtest A u (N.to_nat lag) (N.to_nat (t_tsamples t)) c),
   snd (lagged (nadd A) u (N.to_nat lag) (N.to_nat (t_tsamples t)) (nint A 0) c)).

(** One p-value of test 600 (user_template.h: 100000 samples by default; the
    test is there for an interface that calls add_ui_tests, which dieharder.c
    does not) and of
    test 203 (rgb_lagged_sums.h: 1000000) with the given options. *)
Definition run_600 (o : options) (c : nat) := user_template (new_test o 100000) c.
Definition run_203 (o : options) (c : nat) := rgb_lagged_sums_test o (new_test o 1000000) c.
End Template.
