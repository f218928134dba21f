(** The law of the statistic of diehard_operm5 when all orderings of the
    generator's results are equally likely. *)
From Coq Require Export Reals.
From Verif Require Export OpermSpec OpermStatModel KsReals KsSpec.
Open Scope R_scope.

(** [all] lists every ordering of m numbers, once *)
Definition lists_orderings (m : nat) (all : list (list nat)) : Prop := NoDup all /\ forall pi, In pi all <-> ordering m pi.
Fixpoint lsumR {A} (l : list A) (f : A -> R) : R := match l with [] => 0 | x :: l => f x + lsumR l f end.
Definition average {A} (l : list A) (f : A -> R) : R := lsumR l f / INR (length l).

(** a generator whose results are ordered like [pi] *)
Definition results (pi : list nat) (t : nat) : N := N.of_nat (place pi t).
(** what the program counts: the number of windows with number i *)
Definition counted (overlap : bool) (n : nat) (pi : list nat) (i : nat) : R :=
  match operm_counts (results pi) overlap n 0 with Ok (count, _) => IZR (Z.of_N (nth i count 0%N)) | _ => 0 end.
(** its statistic, in exact arithmetic *)
Definition statistic (overlap : bool) (n : nat) (pi : list nat) : outcome R :=
  do r <- operm_counts (results pi) overlap n 0 ;; operm_stat reals overlap (Z.of_nat n) (fst r).
Definition value (o : outcome R) : R := match o with Ok x => x | _ => 0 end.

(** the table as a matrix of real numbers *)
Definition Pinv (k l : nat) : R := IZR (nth l (nth k pseudo_inv []) 0%Z) / 10 ^ 14.
