(** What the minimum-distance tests should find.  A point is the list of its
    coordinates. *)
From Coq Require Import Reals List Permutation Sorted.
From Flocq Require Import Core IEEE754.BinarySingleNaN.
From Verif Require Import SphereModel.
Import ListNotations.
Open Scope R_scope.

(** The coordinates the theorems speak of: finite doubles between 2^-64 and
    2^30.  Numbers above 0 of a 32-bit generator are at least 2^-32. *)
Definition in_range (x : double) : Prop := is_finite x = true /\ bpow radix2 (-64) <= B2R x <= bpow radix2 30.
(** The array of five that holds a point. *)
Definition point_of (xs : list double) : dpoint := map Some xs ++ repeat None (5 - length xs).

(** The exact distance of two points. *)
Fixpoint sum_squares (xs ys : list double) : R :=
  match xs, ys with
  | x :: xs, y :: ys => (B2R x - B2R y) * (B2R x - B2R y) + sum_squares xs ys
  | _, _ => 0
  end.
Definition exact_distance (xs ys : list double) : R := sqrt (sum_squares xs ys).

(** [a] and [b] are two of the elements of [l], at different places. *)
Definition two_of {A} (l : list A) (a b : A) : Prop :=
  exists i j, (i < j)%nat /\ nth_error l i = Some a /\ nth_error l j = Some b.

(** [m] is, up to a relative error of 2^-49, the least exact distance between
    two of the points. *)
Definition least_distance (l : list (list double)) (m : double) : Prop :=
  is_finite m = true /\
  (forall a b, two_of l a b -> B2R m <= exact_distance a b * (1 + / 2 ^ 49)) /\
  (exists a b, two_of l a b /\ exact_distance a b * (1 - / 2 ^ 49) <= B2R m).

(** Comparing all pairs with the program's own rounded distances, starting
    from a given value. *)
Fixpoint compare_with (dim : nat) (p : dpoint) (rest : list dpoint) (m : double) : outcome double :=
  match rest with
  | [] => Ok m
  | q :: rest => do d <- distance p q dim ;; compare_with dim p rest (if dlt d m then d else m)
  end.
Fixpoint all_pairs (dim : nat) (l : list dpoint) (m : double) : outcome double :=
  match l with
  | [] => Ok m
  | p :: rest => do m <- compare_with dim p rest m ;; all_pairs dim rest m
  end.

(** What gsl_heapsort promises for points whose first coordinate is set and in range. *)
Definition sorts_points (heapsort : list dpoint -> list dpoint) : Prop :=
  forall l, Forall (fun p => exists x, read p 0 = Ok x /\ in_range x) l ->
  Permutation l (heapsort l) /\
  StronglySorted (fun a b => exists c, compare_points a b = Ok c /\ (c <= 0)%Z) (heapsort l).

(** The points a stream of numbers stands for: [dim] numbers each. *)
Definition points_of (dim : nat) (f : double -> double) (u : nat -> double) (n : nat) : list (list double) :=
  map (fun t => map (fun d => f (u (t * dim + d)%nat)) (seq 0 dim)) (seq 0 n).

(** Numbers of gsl_rng_uniform_pos. *)
Definition unit_stream (u : nat -> double) : Prop :=
  forall i, is_finite (u i) = true /\ bpow radix2 (-60) <= B2R (u i) <= 1.
