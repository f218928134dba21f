(** What the parking lot test does, in words of real numbers. *)
From Coq Require Import Reals List.
From Verif Require Import DoubleModel DoubleLemmas.
From Flocq Require Import Core BinarySingleNaN.
Import ListNotations.
Open Scope R_scope.

(** Deviates as gsl_rng_uniform promises them. *)
Definition deviate (x : double) : Prop := is_finite x = true /\ 0 <= B2R x < 1.

(** Attempt n of a run that starts at deviate c: a hundred times the next two deviates, rounded. *)
Definition spot (u : nat -> double) (c n : nat) : R * R :=
  (rnd (100 * B2R (u (c + 2 * n)%nat)), rnd (100 * B2R (u (c + 2 * n + 1)%nat))).

(** Two cars overlap: in both directions no more than one apart.  The difference
    is rounded before it is compared, which adds half a unit in the last place. *)
Definition overlap (p q : R * R) : Prop :=
  Rabs (fst p - fst q) <= 1 + / 2 ^ 53 /\ Rabs (snd p - snd q) <= 1 + / 2 ^ 53.

(** P lists the attempts that succeed: in order, and attempt n is in it exactly when its car
    overlaps none of the cars parked by earlier attempts. *)
Definition succeed (at_ : nat -> R * R) (attempts : nat) (P : list nat) : Prop :=
  (forall i j, (i < j < length P)%nat -> (nth i P 0 < nth j P 0)%nat) /\
  forall n, In n P <-> (n < attempts)%nat /\ forall m, In m P -> (m < n)%nat -> ~ overlap (at_ m) (at_ n).

(** The unit square of the lot that holds a point, and the squares hit by the attempts. *)
Definition unit_square (p : R * R) : Z * Z := (Zfloor (fst p), Zfloor (snd p)).
Definition square_eq_dec (a b : Z * Z) : {a = b} + {a <> b}.
Proof. decide equality; apply Z.eq_dec. Defined.
Definition squares (at_ : nat -> R * R) (attempts : nat) : list (Z * Z) :=
  nodup square_eq_dec (map (fun n => unit_square (at_ n)) (seq 0 attempts)).
