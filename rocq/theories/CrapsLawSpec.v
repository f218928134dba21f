(** The law of a game of craps with fair dice. *)
From Verif Require Export CrapsSpec OpermSpec CrapsStatModel KsReals.
From Coq Require Export Reals.
Open Scope R_scope.

(** The sequences of 2L rolls of a die. *)
Definition rolls_of (L : nat) (l : list N) : Prop := length l = (2 * L)%nat /\ forall x, In x l -> (1 <= x <= 6)%N.
Definition rolled (l : list N) (i : nat) : N := nth i l 1%N.

(** The number of the 36 outcomes of two dice whose sum is t. *)
Definition ways2 (t : N) : R :=
  IZR (match t with 2%N => 1 | 3%N => 2 | 4%N => 3 | 5%N => 4 | 6%N => 5 | 7%N => 6 | 8%N => 5 | 9%N => 4 | 10%N => 3 | 11%N => 2 | 12%N => 1 | _ => 0 end)%Z.
Definition points : list N := [4; 5; 6; 8; 9; 10]%N.
(** The probability that a game is decided by its n-th throw, and won or lost:
    at once, or after a point that n - 2 throws neither repeat nor end. *)
Definition game_law (r : nat * bool) : R :=
  match r with
  | (O, _) => 0
  | (S O, true) => (ways2 7 + ways2 11) / 36
  | (S O, false) => (ways2 2 + ways2 3 + ways2 12) / 36
  | (S (S k), won) => fold_right (fun p s => ways2 p / 36 * (1 - ways2 7 / 36 - ways2 p / 36) ^ k * (ways2 (if won then p else 7%N) / 36) + s) 0 points
  end.
Definition length_law (n : nat) : R := game_law (n, true) + game_law (n, false).
Definition series_law (results : list (nat * bool)) : R := fold_right (fun r s => game_law r * s) 1 results.
Definition throws_of (results : list (nat * bool)) : nat := list_sum (map fst results).

(** The games that take at most M throws, and the mean of f over n of them,
    with the probabilities above. *)
Definition short_games (M : nat) : list (nat * bool) := map (fun m => (m, true)) (seq 1 M) ++ map (fun m => (m, false)) (seq 1 M).
Fixpoint short_series (M n : nat) : list (list (nat * bool)) :=
  match n with O => [[]] | S n => flat_map (fun rs => map (fun r => r :: rs) (short_games M)) (short_series M n) end.
Definition mean_over (M n : nat) (f : list (nat * bool) -> R) : R :=
  fold_right (fun rs s => series_law rs * f rs + s) 0 (short_series M n).
Definition games_won (rs : list (nat * bool)) : R := INR (length (filter snd rs)).
