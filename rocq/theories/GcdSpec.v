(** What the GCD test should obtain from its numbers. *)
From Verif Require Export Base.
Open Scope N_scope.

(** The number of divisions Euclid's algorithm makes on (u, v). *)
Inductive divisions : N -> N -> N -> Prop :=
| exact_division : forall u v, v <> 0 -> u mod v = 0 -> divisions u v 1
| remainder_left : forall u v k, v <> 0 -> u mod v <> 0 -> divisions v (u mod v) k -> divisions u v (k + 1).

(** [next_nonzero g c x c']: from position [c] on, [x] is the first nonzero
    number of the stream and [c'] the position after it. *)
Definition next_nonzero (g : nat -> N) (c : nat) (x : N) (c' : nat) : Prop :=
  exists skip, c' = (c + skip + 1)%nat /\ (forall i, (i < skip)%nat -> g (c + i)%nat = 0) /\
    g (c + skip)%nat = x /\ x <> 0.

(** The pairs of nonzero numbers found one after the other. *)
Inductive pairs (g : nat -> N) : nat -> list (N * N) -> nat -> Prop :=
| no_pair : forall c, pairs g c [] c
| next_pair : forall c u c1 v c2 rest c',
    next_nonzero g c u c1 -> next_nonzero g c1 v c2 -> pairs g c2 rest c' ->
    pairs g c ((u, v) :: rest) c'.
