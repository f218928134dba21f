(** Specification for rgb_permutations. *)
From Coq Require Export Reals Permutation Sorted ListDec.
From Verif Require Export VtestLawSpec RankLawSpec MissingLawSpec.
Open Scope R_scope.

(** What the GSL manual promises: [sort_index] returns the indices 0..k-1 in an
    order that makes the numbers ascend. *)
Definition sorts_indices (sort_index : list N -> list nat) : Prop := forall l,
  Permutation (sort_index l) (seq 0 (length l)) /\ StronglySorted N.le (map (fun i => nth i l 0%N) (sort_index l)).
(** the table lists every permutation of 0..k-1 once *)
Definition lists_permutations (k : nat) (lookup : list (list nat)) : Prop := NoDup lookup /\ forall p, In p lookup <-> Permutation p (seq 0 k).

Section Samples.
Variable sort_index : list N -> list nat.
Variable lookup : list (list nat).
Definition has_order (p : list nat) (o : list N) : bool := if list_eq_dec Nat.eq_dec (sort_index o) p then true else false.
(** Pearson's statistic of the orders of the samples, all equally likely *)
Definition orders_chisq (samples : list (list N)) : R :=
  let e := INR (length samples) / INR (length lookup) in
  lsumR lookup (fun p => (INR (length (filter (has_order p) samples)) - e) ^ 2 / e).
(** the probability of an order for k numbers of w bits, and how much these
    probabilities differ *)
Definition order_share (w : N) (k : nat) (p : list nat) : R := average (matrices w k) (fun o => if has_order p o then 1 else 0).
Definition uneven (w : N) (k : nat) : R := lsumR lookup (fun p => (order_share w k p - 1 / INR (length lookup)) ^ 2).
End Samples.
(** the k-tuples of w-bit numbers that are all different *)
Definition different (w : N) (k : nat) : list (list N) := filter (fun o => if NoDup_dec N.eq_dec o then true else false) (matrices w k).
