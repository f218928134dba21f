(** Model of the allocation and seeding of the XOR supergenerator
    (libdieharder/rng_XOR.c:56-83).  Generators are known by their slot in
    dh_rng_types[] and the seed they were set to last. *)
From Verif Require Export Base.
Open Scope N_scope.

(** A slot of dh_rng_types[]: an ordinary generator, or the supergenerator. *)
Inductive kind := Plain | Super.

Section XorSeed.
Variable types : list (option kind).
(** gnumbs[] and gvcount: the generators given with -g, the supergenerator first *)
Variable gnumbs : list nat.
Variable gvcount : nat.
(** [master s k]: output number [k] of generator 14 after gsl_rng_set with [s] *)
Variable master : N -> nat -> N.

(** The generators an XOR state refers to, with their seeds, and the number of
    generators allocated on the way. *)
Definition made := (list (nat * N) * nat)%type.

(** rng_XOR.c:71-81, the loop from [i] for [n] rounds; [alloc] is gsl_rng_alloc
    and [setg] gsl_rng_set of the new generator: both give the number of
    generators they allocate. *)
Fixpoint set_loop (alloc : nat -> outcome nat) (setg : nat -> N -> outcome nat) (s : N) (n i : nat) : outcome made :=
  match n with
  | O => Ok ([], O)
  | S n =>
    do slot <- aget gnumbs (Z.of_nat i) ;;
    do a <- alloc slot ;;
    let sd := master s (i - 1) in
    do b <- setg slot sd ;;
    do r <- set_loop alloc setg s n (S i) ;;
    Ok ((slot, sd) :: fst r, (a + b + snd r)%nat)
  end.

(** gsl_rng_set of a generator of kind [k]: for the supergenerator
    rng_XOR.c:56-83 [XOR_set], otherwise nothing is allocated.  gsl_rng_alloc
    (GSL rng/rng.c) allocates one generator and sets it to the default seed 0;
    with a null pointer for the type it crashes.  seed_seed is an unsigned int. *)
Fixpoint gset (fuel : nat) (k : kind) (s : N) : outcome made :=
  match fuel with
  | O => OutOfFuel
  | S fuel =>
    match k with
    | Plain => Ok ([], O)
    | Super =>
      let kind_of slot := do t <- aget types (Z.of_nat slot) ;; match t with Some k => Ok k | None => UB "null generator type" end in
      let setg slot sd := do k <- kind_of slot ;; do r <- gset fuel k sd ;; Ok (snd r) in
      let alloc slot := do n <- setg slot 0 ;; Ok (S n) in
      do a <- alloc 14%nat ;;
      do b <- setg 14%nat (w32 s) ;;
      do r <- set_loop alloc setg (w32 s) (gvcount - 1) 1 ;;
      Ok (fst r, (a + b + snd r)%nat)
    end
  end.

(** The life of a supergenerator: allocated (set to the default seed) and then
    set to each of [seeds] (choose_rng.c:190, 257; run_test.c:68).  XOR_set never
    frees what the state referred to before. *)
Fixpoint life (fuel : nat) (seeds : list N) (m : made) : outcome made :=
  match seeds with
  | [] => Ok m
  | s :: seeds => do r <- gset fuel Super s ;; life fuel seeds (fst r, (snd m + snd r)%nat)
  end.
Definition supergenerator (fuel : nat) (seeds : list N) : outcome made :=
  do m <- gset fuel Super 0 ;; life fuel seeds m.
End XorSeed.
