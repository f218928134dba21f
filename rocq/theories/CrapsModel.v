(** Model of diehard_craps (libdieharder/diehard_craps.c).  A roll is
    [1 + gsl_rng_uniform_int(rng,6)]; the rolls are a stream [dice : nat -> N]
    (GSL promises 0..5 from gsl_rng_uniform_int, stated as a hypothesis where it
    matters) and the state is the number of rolls made. *)
From Verif Require Export Tally.
Open Scope N_scope.

Section Dice.
Variable dice : nat -> N.

(** diehard_craps.c:109, 143: [roll() + roll()]; the order of the two calls does
    not matter to the sum. *)
Definition throw2 (c : nat) : N * nat := (add32 (dice c) (dice (S c)), (2 + c)%nat).

(** diehard_craps.c:137-152: roll until the point or a seven.  Result: the bin,
    whether the game is won, and the number of rolls made. *)
Fixpoint throw_again (fuel : nat) (point tries : N) (c : nat) : outcome (Z * bool * nat) :=
  match fuel with
  | O => OutOfFuel
  | S f =>
    let tries := if tries <? 20 then tries + 1 else tries in
    let '(t, c) := throw2 c in
    if t =? 7 then Ok (Z.of_N tries, false, c)
    else if t =? point then Ok (Z.of_N tries, true, c)
    else throw_again f point tries c
  end.

(** diehard_craps.c:105-154, one game. *)
Definition game (fuel : nat) (c : nat) : outcome (Z * bool * nat) :=
  let '(point, c) := throw2 c in
  if (point =? 7) || (point =? 11) then Ok (0%Z, true, c)
  else if (point =? 2) || (point =? 3) || (point =? 12) then Ok (0%Z, false, c)
  else throw_again fuel point 0 c.

(** diehard_craps.c:98-156: the table of 21 bins (doubles, exact below 2^53), the
    wins and the rolls made. *)
Fixpoint games (fuel n : nat) (x : list N) (wins : N) (c : nat) : outcome (list N * N * nat) :=
  match n with
  | O => Ok (x, wins, c)
  | S m =>
    do (b, won, c) <- game fuel c ;;
    do x <- bump x b ;;
    games fuel m x (if won then wins + 1 else wins) c
  end.

Definition craps (fuel tsamples : nat) (c : nat) : outcome (list N * N * nat) :=
  games fuel tsamples (repeat 0 21) 0 c.
End Dice.
