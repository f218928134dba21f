(** Model of the seeding of a dieharder run: choose_rng.c:187-262, time_rng.c,
    rgb_timing.c:29-30, random_seed.c, parsecl.c:204-205 and the start of
    run_test.c:execute_test. *)
From Verif Require Export Base StreamModel.
Open Scope N_scope.

(** parsecl.c:204-205, [Seed = strtol(optarg, NULL, 10)]: a long stored in an
    unsigned int (libdieharder.h:206).  Without -S the value is 0. *)
Definition seed_option (given : option Z) : N :=
  match given with None => 0 | Some z => u32_of_Z z end.

Section Run.
(** [St]: the states of the generator; [Bf]: the static bit buffers of bits.c
    and static_get_bits.c; [Re]: what a test reports. *)
Variables St Bf Re : Type.
Variable set : St -> N -> St.        (** gsl_rng_set *)
Variable timing : St -> St.          (** the draws of rgb_timing.c:34-42 *)

(** The numbers random_seed() reads from /dev/urandom (random_seed.c:40-49),
    in the order of the calls: 32-bit values chosen by the environment. *)
Variable rnd : nat -> N.

(** A test: from generator and buffers to its report and what it leaves.
    Everything else a test uses is fixed by the command line. *)
Definition test := St -> Bf -> Re * (St * Bf).

(** The globals [rng], the bit buffers, [seed] and the number of calls of
    random_seed so far. *)
Record machine := mkM { gen : St; buf : Bf; seed : N; calls : nat }.

(** rgb_timing.c:29-42, called by time_rng when the rate is to be shown. *)
Definition time_rng (m : machine) : machine :=
  let q := rnd (calls m) in
  mkM (timing (set (gen m) q)) (buf m) q (S (calls m)).

(** choose_rng.c:237-257 and run_test.c:57-68, the same lines twice: a random
    seed when Seed is 0, Seed otherwise; the bit buffers are not touched. *)
Definition reseed (Seed : N) (m : machine) : machine :=
  if Seed =? 0 then
    let q := rnd (calls m) in mkM (set (gen m) q) (buf m) q (S (calls m))
  else mkM (set (gen m) Seed) (buf m) Seed (calls m).

(** choose_rng.c:187-257 from gsl_rng_alloc on. *)
Definition choose_rng (rate : bool) (Seed : N) (m : machine) : machine :=
  reseed Seed (if rate then time_rng m else m).

(** run_test.c:41-140 [execute_test]: reseed if strategy is not 0, run the
    test, show a row with the global [seed] in it (output.c). *)
Definition execute_test (strategy : bool) (Seed : N) (t : test) (m : machine)
    : (N * Re) * machine :=
  let m := if strategy then reseed Seed m else m in
  let '(r, (s, b)) := t (gen m) (buf m) in
  ((seed m, r), mkM s b (seed m) (calls m)).

(** run_all_tests.c / run_test.c: one test after another. *)
Fixpoint execute_all (strategy : bool) (Seed : N) (ts : list test) (m : machine)
    : list (N * Re) :=
  match ts with
  | [] => []
  | t :: rest =>
    let '(row, m) := execute_test strategy Seed t m in
    row :: execute_all strategy Seed rest m
  end.

(** dieharder.c:main after parsing: the rows of a run.  [s0] is what
    gsl_rng_alloc gives, [b0] the buffers of a new process. *)
Definition run (rate strategy : bool) (given : option Z) (ts : list test) (s0 : St) (b0 : Bf)
    : list (N * Re) :=
  let Seed := seed_option given in
  execute_all strategy Seed ts (choose_rng rate Seed (mkM s0 b0 0 0)).
End Run.

(** A test that takes [k] pieces of [n] bits with get_rand_bits_uint from a
    generator of [w] bits; the state of the generator is its seed and the
    number of draws, [g] its sequence.  This is how rgb_bitdist,
    diehard_rank_32x32, diehard_count_1s, marsaglia_tsang_gcd and others read
    their input (static_get_bits.c:25-196). *)
Definition piece_test (g : N -> N -> N) (w n : N) (k : nat) (s : N * N) (b : N * N)
    : outcome (list N) * ((N * N) * (N * N)) :=
  match run_rbu (g (fst s)) w (repeat n k) (mkR (fst b) (snd b) (snd s)) with
  | Ok (vs, r) => (Ok vs, ((fst s, rpos r), (bit_buffer r, bits_left r)))
  | Exit c => (Exit c, (s, b))
  | UB m => (UB m, (s, b))
  | OutOfFuel => (OutOfFuel, (s, b))
  end.
