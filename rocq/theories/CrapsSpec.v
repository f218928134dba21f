(** The rules of craps, on the sequence of two-dice throws. *)
From Verif Require Export Base.
Open Scope N_scope.

(** [plays throws n won]: a game on the throws [throws 0], [throws 1], ... is
    decided by the [n]-th of them (counted from 1) and won or lost. *)
Inductive plays (throws : nat -> N) : nat -> bool -> Prop :=
| natural : throws 0%nat = 7 \/ throws 0%nat = 11 -> plays throws 1 true
| craps_out : throws 0%nat = 2 \/ throws 0%nat = 3 \/ throws 0%nat = 12 -> plays throws 1 false
| point_made : forall n,
    ~ In (throws 0%nat) [7; 11; 2; 3; 12] ->
    (forall i, (0 < i < n)%nat -> throws i <> 7 /\ throws i <> throws 0%nat) ->
    (0 < n)%nat -> throws n = throws 0%nat -> plays throws (S n) true
| seven_out : forall n,
    ~ In (throws 0%nat) [7; 11; 2; 3; 12] ->
    (forall i, (0 < i < n)%nat -> throws i <> 7 /\ throws i <> throws 0%nat) ->
    (0 < n)%nat -> throws n = 7 -> plays throws (S n) false.

(** The throws made with the dice from roll number [c] on. *)
Definition throws_from (dice : nat -> N) (c : nat) (i : nat) : N :=
  dice (c + 2 * i)%nat + dice (c + 2 * i + 1)%nat.

(** A series of games, one after the other: how many throws each took and
    whether it was won. *)
Inductive series (dice : nat -> N) : nat -> list (nat * bool) -> nat -> Prop :=
| no_game : forall c, series dice c [] c
| one_more : forall c n won rest c',
    plays (throws_from dice c) n won -> series dice (c + 2 * n) rest c' ->
    series dice c ((n, won) :: rest) c'.
