(** Model of libdieharder/diehard_parking_lot.c: the parking lot test.

    The deviates of gsl_rng_uniform are a sequence of doubles; gsl_cdf_gaussian_P
    is a parameter.  The output is left out. *)
From Verif Require Export DoubleModel KsModel XtestModel.
Open Scope Z_scope.

(** diehard_parking_lot.c:70-73: [Cars] *)
Definition car := (double * double)%type.

(** diehard_parking_lot.c:109-110, 120-121: 100.0 times two deviates *)
Definition d100 : double := d_of_Z 100.
Definition try_at (u : nat -> double) (c : nat) : car := (dmul d100 (u c), dmul d100 (u (S c))).

(** diehard_parking_lot.c:130 *)
Definition hits (p t : car) : bool :=
  dle (dabs (dsub (fst p) (fst t))) done && dle (dabs (dsub (snd p) (snd t))) done.

(** diehard_parking_lot.c:122-134: the loop over the cars parked so far, left at
    the first crash; [n] steps from [i] *)
Fixpoint crash_loop (n : nat) (i : Z) (parked : list car) (t : car) : outcome bool :=
  match n with
  | O => Ok false
  | S n => do p <- aget parked i ;; if hits p t then Ok true else crash_loop n (i + 1) parked t
  end.

(** diehard_parking_lot.c:119-144: one attempt; the state is the array, the
    number k of parked cars and the number of deviates drawn *)
Definition park_step (u : nat -> double) (s : list car * nat * nat) : outcome (list car * nat * nat) :=
  let '(parked, k, c) := s in
  let t := try_at u c in
  do crashed <- crash_loop k 0 parked t ;;
  if (crashed : bool) then Ok (parked, k, S (S c))
  else do parked <- aset parked (Z.of_nat k) t ;; Ok (parked, S k, S (S c)).

(** diehard_parking_lot.c:81, 104-144, with 12000 replaced by [attempts].  The
    array lives on the stack. *)
Definition park (u : nat -> double) (attempts c : nat) : outcome (list car * nat * nat) :=
  do parked <- aset (repeat (dzero, dzero) attempts) 0 (try_at u c) ;;
  iter_o (attempts - 1) (park_step u) (parked, 1%nat, S (S c)).

(** diehard_parking_lot.c:75-156: the p-value and the number of deviates drawn *)
Definition parking_attempts : nat := N.to_nat 12000.
Definition diehard_parking_lot (dpow : double -> Z -> double) (dexp : double -> double) (gaussian_P : double -> double -> double) (u : nat -> double) (c : nat) : outcome (double * nat) :=
  do (s, c) <- park u parking_attempts c ;;
  let A := doubles dpow dexp in
  Ok (Xtest_eval A gaussian_P {| xt_x := nint A (Z.of_nat (snd s)); xt_y := nlit A 35230 10; xt_sigma := nlit A 219 10 |}, c).
