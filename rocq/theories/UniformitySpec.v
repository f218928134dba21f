(** What the uniformity test should do. *)
From Coq Require Import ZArith Reals List.
From Flocq Require Import Core IEEE754.BinarySingleNaN.
From Verif Require Import Base DoubleModel.
Import ListNotations.
Open Scope R_scope.

(** the values of the generator from number [c] on, [k] of them *)
Definition drawn (g : nat -> double) (c k : nat) : list double := map g (seq c k).
(** those that are not zero, in the order drawn *)
Definition positive (l : list double) : list double := filter (fun x => negb (deq x dzero)) l.
(** a generator's numbers are in [0,1) *)
Definition uniform_stream (g : nat -> double) : Prop := forall i, is_finite (g i) = true /\ 0 <= B2R (g i) < 1.
(** [k] values give [n] deviates: [n] are not zero, and the last of them comes last *)
Definition gives (g : nat -> double) (c k n : nat) : Prop :=
  length (positive (drawn g c k)) = n /\ (forall j, (j < k)%nat -> (length (positive (drawn g c j)) < n)%nat).
