(** Model of the get_double functions of the generators: what gsl_rng_uniform
    returns for them. *)
From Verif Require Export GensModel DoubleModel.
Open Scope N_scope.

(** The common formula [get(vstate) / (double) UINT_MAX]: rng_XOR.c:50-54,
    rng_kiss.c:60-63, rng_ca.c:116-120, rng_uvag.c:115-119, rng_aes.c and
    rng_threefish.c (get_double), rng_dev_random.c:36-40, and
    rng_file_input.c, rng_file_input_raw.c.  The conversion of an unsigned long
    to double rounds to nearest. *)
Definition over_uint_max (v : N) : double := ddiv (d_of_Z (Z.of_N v)) (d_of_Z 4294967295).
(** rng_superkiss.c:82-87: with a cast to unsigned int first. *)
Definition superkiss_double (v : N) : double := over_uint_max (w32 v).
(** rng_kiss.c:60-63 [kiss_get_double]. *)
Definition kiss_get_double (s : kstate) : outcome (double * kstate) :=
  do (v, s) <- kiss_get s ;; Ok (over_uint_max v, s).
(** rng_dev_random.c:36-40 [dev_random_get_double]. *)
Definition dev_random_get_double (dev : list N) : outcome (double * list N) :=
  do (v, dev) <- dev_random_get dev ;; Ok (over_uint_max v, dev).
