(** Specification for rgb_bitdist: trials of 64 independent values of nb bits. *)
From Verif Require Export VtestVarSpec RankLawSpec MissingLawSpec.
From Verif Require ChisqSpec.
Open Scope R_scope.

(** the number of times a trial shows value i *)
Definition shown (i : N) (trial : list N) : nat := length (filter (N.eqb i) trial).
(** all trials, equally likely *)
Definition trials (nb : N) : list (list N) := matrices nb 64.
(** chi-square for value i: the cells are the numbers of times it can be shown *)
Definition value_chisq (nb : N) (i : N) (n : nat) (L : list (list N)) : R := chisq_samples (trials nb) (shown i) 65 n 20 L.
Definition value_terms (nb : N) (i : N) (n : nat) : nat := terms (trials nb) (shown i) 65 n 20.
Definition value_left_out (nb : N) (i : N) (n : nat) : R := left_out (trials nb) (shown i) 65 n 20.
