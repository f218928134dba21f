(** The law of the counts of the second tree-filling test. *)
From Verif Require Export CoinSpec TreeSpec TreeStatModel ChisqSpec.
Open Scope R_scope.

(** the first L bits of a generator's words from position c on, least significant bit first *)
Definition first_bits (g : nat -> N) (w : N) (c L : nat) : list bool := map (lsb_stream (fun k => g (c + k)%nat) w) (seq 0 L).
(** the chance that a tree ends with descent number i+1 *)
Definition law2 (i : nat) : R := rsum 64 (fun p => tree_chance 762 1 [Some (S i, N.of_nat p)]).
(** an entry of a table *)
Definition entry (table : list (Z * Z)) (i : nat) : R := IZR (fst (nth i table (0, 0)%Z)) / IZR (10 ^ snd (nth i table (0, 0)%Z)).

(** how many of the results have the property P *)
Definition how_many (P : nat * N -> bool) (rs : list (nat * N)) : R := IZR (Z.of_N (countp P rs)).
Definition took (i : nat) (r : nat * N) : bool := (fst r =? S i)%nat.
Definition ended (p : nat) (r : nat * N) : bool := (snd r =? N.of_nat p)%N.

(** The bins compared, a to b - 1: a is the first whose expected count is not
    below four, b the last whose expected count is above four. *)
Definition bins (table : list (Z * Z)) (m : R) (a b : nat) : Prop :=
  (1 <= a <= b)%nat /\ (b < length table)%nat /\ (forall i, (i < a)%nat -> m * entry table i < 4) /\
  (forall i, (a <= i <= b)%nat -> 4 <= m * entry table i) /\ 4 < m * entry table b /\ (forall i, (b < i < length table)%nat -> m * entry table i <= 4).
(** Pearson's statistic over these bins *)
Definition bins_chisq (table : list (Z * Z)) (m : R) (a b : nat) (rs : list (nat * N)) : R :=
  rsum (b - a) (fun j => (how_many (took (a + j)) rs - m * entry table (a + j)) ^ 2 / (m * entry table (a + j))).

Definition results_of (o : option (list (option (nat * N)))) : list (nat * N) :=
  match o with Some l => concat (map (fun r => match r with Some x => [x] | None => [] end) l) | None => [] end.
