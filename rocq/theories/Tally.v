(** Tables of counters, shared by the models of the statistical tests.
    [bump] is the C statement [t[i]++] on a counter that cannot wrap: the
    tests' counters are doubles (exact below 2^53) or 32-bit and larger
    integers, incremented at most once per sample of a run of fewer than 2^32
    samples.  Where a counter can wrap the model says so and does not use it. *)
From Verif Require Export Base.
Open Scope N_scope.

Definition bump (t : list N) (i : Z) : outcome (list N) :=
  do c <- aget t i ;; aset t i (c + 1).

(** Number of elements of a list that satisfy a test. *)
Fixpoint countp {A} (f : A -> bool) (l : list A) : N :=
  match l with [] => 0 | a :: r => (if f a then 1 else 0) + countp f r end.

(** The table holds, for every cell, the number of times the list names it. *)
Definition tallies (t : list N) (l : list Z) : Prop :=
  (forall i, In i l -> (0 <= i < Z.of_nat (length t))%Z) /\
  forall k, (k < length t)%nat -> nth k t 0 = countp (fun i => (i =? Z.of_nat k)%Z) l.

Fixpoint total (t : list N) : N := match t with [] => 0 | a :: r => a + total r end.
