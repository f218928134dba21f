(** Specification of the overlapping-sums test. *)
From Coq Require Import Reals List.
From Verif Require Import KsSpec.
Open Scope R_scope.

(** ** Affine functions of independent uniform deviates *)
Definition unit_at (i : nat) : nat -> R := fun j => if Nat.eqb i j then 1 else 0.
Definition coefficient (F : (nat -> R) -> R) (i : nat) : R := F (unit_at i) - F (fun _ => 0).
(** [F] is an affine function of the first [n] deviates *)
Definition affine (n : nat) (F : (nat -> R) -> R) : Prop :=
  forall u, F u = F (fun _ => 0) + rsum n (fun i => coefficient F i * u i).
(** The covariance of two affine functions of [n] independent deviates, each
    with variance 1/12. *)
Definition covariance (n : nat) (F G : (nat -> R) -> R) : R := rsum n (fun i => coefficient F i * coefficient G i) / 12.

(** ** The sums *)
(** the sum of m deviates from the t-th on, shifted and scaled to mean 0 and variance m *)
Definition overlapping (m t : nat) (u : nat -> R) : R := (rsum m (fun i => u (t + i)%nat) - INR m / 2) * sqrt 12.
(** Marsaglia's transformation, as in the comment of diehard_sums.c:237-249 *)
Definition marsaglia (m t : nat) (u : nat -> R) : R :=
  let y := fun t => overlapping m t u in let a := 2 * INR m + 1 - INR t in
  match t with
  | O => y 0%nat / sqrt (INR m)
  | 1%nat => (y 1%nat - (INR m - 1) / INR m * y 0%nat) * sqrt (INR m / (2 * INR m - 1))
  | _ => (y 0%nat - (a - 1) * y (t - 1)%nat + a * y t) / sqrt (2 * a * (a - 1))
  end.
(** what diehard_sums.c:250 has in its place *)
Definition dieharder_sums (m t : nat) (u : nat -> R) : R :=
  let y := fun t => overlapping m t u in let a := 2 * INR m + 1 - INR t in
  (y (t - 2)%nat - (a - 1) * y (t - 1)%nat + a * y t) / sqrt (2 * a * (a - 1)).
