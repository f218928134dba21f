(** Small specifications for the generators from GNU R. *)
From Verif Require Export RModel GensSpec.
Open Scope N_scope.

(** The recurrence of the Mersenne twister MT19937 (Matsumoto and Nishimura
    1998): the top bit of one word and the other 31 bits of the next, times the
    matrix A, plus the word 397 places on. *)
Definition twist (a b : N) : N :=
  let y := 2 ^ 31 * (a / 2 ^ 31) + b mod 2 ^ 31 in
  N.lxor (y / 2) (if N.odd y then 0x9908b0df else 0).
Definition mt19937 (x : nat -> N) : Prop :=
  forall n, x (n + 624)%nat = N.lxor (x (n + 397)%nat) (twist (x n) (x (n + 1)%nat)).

(** Its tempering of a word. *)
Definition temper (y : N) : N :=
  let y := N.lxor y (y / 2 ^ 11) in
  let y := N.lxor y (N.land (y * 2 ^ 7) 0x9d2c5680) in
  let y := N.lxor y (N.land (y * 2 ^ 15) 0xefc60000) in
  N.lxor y (y / 2 ^ 18).

(** Knuth's lagged subtraction (TAOCP 3.6): x(n) = x(n-100) - x(n-37) modulo
    2^30. *)
Definition lagged (x : nat -> N) : Prop :=
  forall n, Z.of_N (x (n + 100)%nat) = ((Z.of_N (x n) - Z.of_N (x (n + 63)%nat)) mod 2 ^ 30)%Z.

(** The first [n] results of a function that returns a value and a new state. *)
Fixpoint times {A S} (f : S -> outcome (A * S)) (n : nat) (s : S) : outcome (list A * S) :=
  match n with
  | O => Ok ([], s)
  | Datatypes.S n => do (a, s) <- f s ;; do (l, s) <- times f n s ;; Ok (a :: l, s)
  end.
