(** Specification of the approximate Kolmogorov-Smirnov p-values and of Kuiper's statistic. *)
From Coq Require Import ZArith Reals List.
From Verif Require Import KsSpec DoubleModel SphereModel.
Open Scope R_scope.

(** Kolmogorov's limit distribution: the probability that the scaled distance
    exceeds [x] is 2 (e^(-2 x^2) - e^(-8 x^2) + e^(-18 x^2) - ...). *)
Definition kolmogorov_tail (x l : R) : Prop :=
  infinite_sum (fun i => (-1) ^ i * exp (- 2 * (INR i + 1) ^ 2 * x ^ 2)) (l / 2).

(** Marsaglia, Tsang and Wang's approximation for large distances. *)
Definition mtw_quick (n : nat) (d : R) : R :=
  2 * exp (- (2000071 / 1000000 + 331 / 1000 / sqrt (INR n) + 1409 / 1000 / INR n) * INR n * d ^ 2).

(** Kuiper's statistic: how far the empirical distribution rises above the
    uniform one plus how far it falls below. *)
Definition kuiper_distance (l : list R) (V : R) : Prop := exists above below,
  is_lub (fun v => exists x, 0 <= x <= 1 /\ v = at_most l x - x) above /\
  is_lub (fun v => exists x, 0 <= x <= 1 /\ v = x - at_most l x) below /\ V = above + below.

(** The sum f 1 + ... + f n, added from the left with doubles. *)
Fixpoint fsum (f : nat -> double) (n : nat) : double := match n with O => dzero | S n => dadd (fsum f n) (f (S n)) end.
(** [n] is the first number from which on the sum stops changing. *)
Definition settles (f : nat -> double) (n : nat) : Prop :=
  deq (fsum f (S n)) (fsum f n) = true /\ forall k, (k < n)%nat -> deq (fsum f (S k)) (fsum f k) = false.
(** The m-th terms of the two series, Q = 2 sum (4 m^2 x^2 - 1) e^(-2 m^2 x^2) and
    P = 8 x / (3 sqrt n) sum m^2 (4 m^2 x^2 - 3) e^(-2 m^2 x^2). *)
Definition dm2 (m : nat) : double := d_of_Z (Z.of_nat m * Z.of_nat m).
Definition gauss (dexp : double -> double) (x2 : double) (m : nat) : double := dexp (dmul (dmul (dopp (d_of_Z 2)) (dm2 m)) x2).
Definition q_term (dexp : double -> double) (x2 : double) (m : nat) : double :=
  dmul (dsub (dmul (dmul (d_of_Z 4) (dm2 m)) x2) DoubleModel.done) (gauss dexp x2 m).
Definition p_term (dexp : double -> double) (x2 : double) (m : nat) : double :=
  dmul (dmul (dm2 m) (dsub (dmul (dmul (d_of_Z 4) (dm2 m)) x2) (d_of_Z 3))) (gauss dexp x2 m).
