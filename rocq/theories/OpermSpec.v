(** Orderings of consecutive numbers, and the law of the overlapping counts. *)
From Coq Require Export List Arith ZArith Permutation.
From Verif Require Export KpermModel.
Import ListNotations.
Open Scope nat_scope.

(** [P] holds of exactly [k] things. *)
Definition exactly {A} (k : nat) (P : A -> Prop) : Prop :=
  exists l, NoDup l /\ (forall x, In x l <-> P x) /\ length l = k.

(** An ordering of n numbers lists their positions 0, ..., n-1 from that of the
    smallest to that of the largest. *)
Definition ordering (n : nat) (pi : list nat) : Prop := Permutation pi (seq 0 n).
(** The place of position [x] in the ordering: numbers in this order. *)
Fixpoint place (pi : list nat) (x : nat) : nat :=
  match pi with [] => 0 | y :: r => if Nat.eqb y x then 0 else S (place r x) end.
(** The number the program gives to the window of five that starts at [s]. *)
Definition window_number (pi : list nat) (s : nat) : outcome Z :=
  kperm (map (fun k => N.of_nat (place pi (s + k))) (seq 0 5)) 0.
