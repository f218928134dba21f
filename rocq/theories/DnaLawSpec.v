(** The number of words that do not occur among the words of the DNA test. *)
From Verif Require Export MissingLawSpec.
Open Scope R_scope.

(** The test discards eleven results; [dna_word] (WordSpec) is its t-th word. *)
Definition dna_unseen (n : nat) (l : list N) : R :=
  IZR (2 ^ 20 - Z.of_N (distinct (map (dna_word 32 (drawn l) 11) (seq 0 n)))).
