(** Specification of the statistic of dab_bytedistrib. *)
From Verif Require Export BitStatSpec PropRgb.
Open Scope R_scope.

(** Byte j (lowest, middle, highest) of word i of sample t; three words a sample,
    from word number c on. *)
Definition sampled_byte (w : N) (g : nat -> N) (c i j t : nat) : N := field (g (c + 3 * t + i)%nat) (byte_offset w j) 8.
(** Pearson's statistic of the values of one of the nine bytes, and their sum *)
Definition byte_chisq (w : N) (n : nat) (g : nat -> N) (c i j : nat) : R :=
  rsum 256 (fun v => (how_often n (sampled_byte w g c i j) v - INR n / 256) ^ 2 / (INR n / 256)).
Definition bytes_chisq (w : N) (n : nat) (g : nat -> N) (c : nat) : R := rsum 3 (fun i => rsum 3 (fun j => byte_chisq w n g c i j)).
(** the number of bits that bytes i and j of a word have in common *)
Definition shared_bits (w : N) (i j : nat) : nat :=
  let a := byte_offset w i in let b := byte_offset w j in N.to_nat (8 - (N.max a b - N.min a b)).
Definition bytes_variance (w : N) (n : nat) : R := 6 * (1 - 1 / INR n) * rsum 3 (fun i => rsum 3 (fun j => 2 ^ shared_bits w i j - 1)).
