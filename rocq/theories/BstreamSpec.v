(** The number of 20-bit words that do not occur among the overlapping words of
    the bitstream test. *)
From Verif Require Export MissingLawSpec.
Open Scope R_scope.

(** [stream_word] (WordSpec) is the t-th word of the test: 20 bits of the stream
    from bit t + 8 on. *)
Definition stream_unseen (n : nat) (l : list N) : R :=
  IZR (2 ^ 20 - Z.of_N (distinct (map (stream_word (drawn l) 0) (seq 0 n)))).
(** Every sequence of the 262146 results that the test reads. *)
Definition stream_sequences : list (list N) := matrices 32 (N.to_nat 262146).
