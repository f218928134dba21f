(** Specification of the chi-square and likelihood-ratio tests. *)
From Coq Require Import ZArith Reals List.
From Verif Require Import KsSpec.
Import ListNotations.
Open Scope R_scope.

Definition total {A} (f : A -> R) (l : list A) : R := fold_right (fun a s => f a + s) 0 l.
(** Pearson's statistic of bins given as (observed, expected). *)
Definition pearson (bins : list (R * R)) : R := total (fun b => (fst b - snd b) ^ 2 / snd b) bins.
(** The observed counts [obs] beside what [n] samples of a law should give, the
    i-th bin having probability [law i]. *)
Definition against (obs : list R) (n : R) (law : nat -> R) : list (R * R) :=
  combine obs (map (fun k => n * law k) (seq 0 (length obs))).

Definition poisson (lambda : R) (k : nat) : R := exp (- lambda) * lambda ^ k / INR (fact k).
(** the number of trials up to the first success *)
Definition geometric (p : R) (k : nat) : R := (1 - p) ^ (k - 1) * p.
Definition binomial (n : nat) (p : R) (k : nat) : R := INR (fact n) / (INR (fact k) * INR (fact (n - k))) * p ^ k * (1 - p) ^ (n - k).

(** The likelihood-ratio statistic of [obs] against equal probabilities:
    2 sum O ln (O/E), where an empty bin counts nothing. *)
Definition likelihood_ratio (obs : list R) (n : R) : R :=
  2 * total (fun o => if Req_EM_T o 0 then 0 else o * ln (o / (n / INR (length obs)))) obs.
(** The divisor of Smith, Rae, Manderscheid and Silbergeld (1981). *)
Definition smith (k n : R) : R := 1 + (k + 1) / (6 * n) + k ^ 2 / (6 * n ^ 2).

(** Pearson's statistic for the independence of rows and columns in a table of
    [rows] x [columns] counts with the sum [n]: the expected count is the
    product of row sum and column sum divided by [n]. *)
Definition independence (rows columns : nat) (n : R) (O : nat -> nat -> R) : R :=
  rsum rows (fun i => rsum columns (fun j =>
    let e := rsum columns (fun k => O i k) * rsum rows (fun k => O k j) / n in (O i j - e) ^ 2 / e)).
