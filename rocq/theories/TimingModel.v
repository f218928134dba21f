(** Model of the speed measurement: libdieharder/rgb_timing.c, timing.c and
    dieharder/time_rng.c. *)
From Verif Require Export Base KsModel.
Open Scope N_scope.

(** gettimeofday: seconds and microseconds. *)
Definition reading := (Z * Z)%type.

Section Timing.
Variable A : arith.

(** timing.c:28-33 [delta_timing] *)
Definition delta_timing (start stop : reading) : num A :=
  nadd A (nint A (fst stop - fst start))
         (nmul A (nlit A 1 1000000) (nint A (snd stop - snd start))).

(** rgb_timing.c:34-42: the passes; each element is what start_timing and
    stop_timing read in one pass.  The draws only take time. *)
Definition total_time (passes : list (reading * reading)) : num A :=
  fold_left (fun t p => nadd A t (delta_timing (fst p) (snd p))) passes (nint A 0).

(** rgb_timing.c:19-52 [rgb_timing]: avg_time_nsec and rands_per_sec, for
    [psamples] passes of [tsamples] draws.  The loop variables are int, so
    counts of 2^31 and more overflow them; the product in line 43 is one of
    unsigned ints.  Memory for the numbers is assumed to be there. *)
Definition rgb_timing (psamples tsamples : N) (clock : nat -> reading * reading)
    : outcome (num A * num A) :=
  if (2 ^ 31 <=? psamples) || ((0 <? psamples) && (2 ^ 31 <=? tsamples))
  then UB "overflow of the loop variable"
  else
    let total := total_time (map clock (seq 0 (N.to_nat psamples))) in
    let avg := ndiv A total (nint A (Z.of_N (mul32 psamples tsamples))) in
    Ok (nmul A avg (nint A 1000000000), ndiv A (nint A 1) avg).
End Timing.
