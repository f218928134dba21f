(** Rank of a bit matrix, without any elimination: over the two-element field
    the rows span 2^rank different vectors. *)
From Coq Require Export List NArith Arith.
Import ListNotations.
Open Scope N_scope.

(** The sums (exclusive ors) of all subsets of the rows. *)
Fixpoint subset_sums (rows : list N) : list N :=
  match rows with
  | [] => [0]
  | r :: rest => subset_sums rest ++ map (N.lxor r) (subset_sums rest)
  end.
Definition span_size (rows : list N) : nat := length (nodup N.eq_dec (subset_sums rows)).
(** [rank] is the rank of the matrix whose rows are the bits 0..n-1 of the
    given words. *)
Definition is_rank (rows : list N) (n : N) (rank : nat) : Prop :=
  span_size (map (fun r => r mod 2 ^ n) rows) = (2 ^ rank)%nat.
