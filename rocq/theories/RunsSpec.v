(** Runs of a sequence, independently of how they are counted. *)
From Verif Require Export Base.
Open Scope N_scope.

(** The maximal blocks of [x :: xs] in which each element is related to the
    next, in order. *)
Fixpoint blocks (rel : N -> N -> bool) (x : N) (xs : list N) : list (list N) :=
  match xs with
  | [] => [[x]]
  | y :: r =>
    match blocks rel y r with
    | [] => []
    | b :: bs => if rel x y then (x :: b) :: bs else [x] :: b :: bs
    end
  end.

Definition increases (x y : N) : bool := x <? y.
Definition falls (x y : N) : bool := y <=? x.

(** A block of length L goes to bin min(L,6), numbered from 0. *)
Definition run_bin (b : list N) : Z := Z.of_nat (Nat.min (length b) 6) - 1.
