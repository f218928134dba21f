(** Specification of the squeeze test. *)
From Coq Require Import ZArith Reals List.
From Flocq Require Import Core IEEE754.BinarySingleNaN.
From Verif Require Import DoubleModel DoubleLemmas KsSpec.
Open Scope R_scope.

(** ** One sample *)
(** [k] after [n] steps from [k0]: each step multiplies by the next deviate,
    rounds the product to a double and takes the least integer not below it. *)
Fixpoint squeezed (u : nat -> double) (k0 : Z) (c n : nat) : Z :=
  match n with O => k0 | S n => squeezed u (Zceil (rnd (IZR k0 * B2R (u c)))) (S c) n end.
(** a sample that starts at the deviate [c] takes [j] steps to reach 1, or is
    given up after 48 *)
Definition takes (u : nat -> double) (c j : nat) : Prop :=
  (j <= 48)%nat /\ (forall i, (i < j)%nat -> squeezed u 2147483647 c i <> 1%Z) /\
  (squeezed u 2147483647 c j = 1%Z \/ j = 48%nat).
(** the samples, one after the other *)
Inductive samples (u : nat -> double) : nat -> list nat -> nat -> Prop :=
| samples_none c : samples u c nil c
| samples_some c j l c' : takes u c j -> samples u (c + j) l c' -> samples u c (j :: l) c'.
(** the bin of a sample: up to 6 steps together, 48 and more together *)
Definition steps_bin (j : nat) : Z := Z.of_nat (Nat.max j 6 - 6).

(** ** The law of the number of steps *)
(** The probability that exactly [j] steps take [k] to 1, if each step goes to
    one of 1, ..., k with the same probability. *)
Fixpoint steps_law (j k : nat) : R :=
  match j with
  | O => if Nat.eqb k 1 then 1 else 0
  | S j => if Nat.eqb k 1 then 0 else rsum k (fun i => steps_law j (i + 1)) / INR k
  end.
(** The probability of each of the 43 bins for a start at [k]. *)
Definition bin_law (k b : nat) : R :=
  match b with
  | O => rsum 7 (fun j => steps_law j k)
  | 42%nat => 1 - rsum 48 (fun j => steps_law j k)
  | _ => steps_law (b + 6) k
  end.
