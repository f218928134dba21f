(** Specification of the statistics of the bit-counting tests. *)
From Coq Require Export Reals.
From Verif Require Export WordSpec CountOnesSpec RankLawSpec MissingLawSpec VtestLawSpec.
Open Scope R_scope.

(** how often the words word 0, ..., word (n-1) are the number v *)
Definition how_often (n : nat) (word : nat -> N) (v : nat) : R :=
  INR (length (filter (fun t => (word t =? N.of_nat v)%N) (seq 0 n))).

(** ** count-the-1s *)
(** the share of the 256 bytes with a letter, and of the words of [k] letters,
    the digits of v in base 5 *)
Definition letter_share (y : N) : R := INR (length (filter (fun b => (letter (N.of_nat b) =? y)%N) (seq 0 256))) / 256.
Fixpoint word_share (k : nat) (v : N) : R :=
  match k with O => 1 | S k => letter_share (v mod 5) * word_share k (v / 5) end.
(** Pearson's statistic of n words of k letters *)
Definition words_chisq (k n : nat) (word : nat -> N) : R :=
  rsum (5 ^ k) (fun v => (how_often n word v - INR n * word_share k (N.of_nat v)) ^ 2 / (INR n * word_share k (N.of_nat v))).

(** ** the serial test: psi-square of NIST SP 800-22 for the cyclic windows of m
    bits of the string of all bits, most significant first *)
Definition bits_in (l : list N) : R := 32 * INR (length l).
Definition cyclic_window (l : list N) (m t : nat) : N := window_value (cyclic_msb_bit l) (N.of_nat t) m.
Definition psi_square (l : list N) (m : nat) : R :=
  match m with
  | O => 0
  | _ => 2 ^ m / bits_in l * rsum (2 ^ m) (fun v => how_often (32 * length l) (cyclic_window l m) v ^ 2) - bits_in l
  end.
(** first and second differences *)
Definition del_psi (l : list N) (m : nat) : R := psi_square l m - psi_square l (m - 1).
Definition del2_psi (l : list N) (m : nat) : R := psi_square l m - 2 * psi_square l (m - 1) + psi_square l (m - 2).
(** zeros minus ones *)
Definition zeros_minus_ones (l : list N) : R := how_often (32 * length l) (cyclic_window l 1) 0 - how_often (32 * length l) (cyclic_window l 1) 1.

(** the p-values of the serial test of NIST SP 800-22 from the normal and the
    upper incomplete gamma distributions: monobit, then for m = 2..16 the first
    difference and, from m = 3 on, the second *)
Definition serial_pair (Q : R -> R -> R) (l : list N) (m : nat) : list R :=
  Q (2 ^ (m - 2)) (del_psi l m / 2) :: (if (2 <? m)%nat then [Q (2 ^ (m - 3)) (del2_psi l m / 2)] else []).
Definition serial_list (P Q : R -> R -> R) (l : list N) : list R :=
  P (zeros_minus_ones l) (sqrt (bits_in l)) :: flat_map (serial_pair Q l) (seq 2 15).

(** ** monobit and runs *)
Definition ones_minus_zeros (w : nat) (l : list N) : R :=
  lsumR l (fun x => 2 * INR (N.to_nat (ones w x)) - INR w).
(** ones and changes between neighbours in the cyclic string of the words' bits *)
Definition bit_count (w : nat) (l : list N) (f : N -> bool) : R := INR (length (filter (fun p => f (N.of_nat p)) (seq 0 (w * length l)))).
Definition ones_of (w : nat) (l : list N) : R := bit_count w l (cyclic_lsb_bit (N.of_nat w) l).
Definition changes_of (w : nat) (l : list N) : R :=
  bit_count w l (fun p => xorb (cyclic_lsb_bit (N.of_nat w) l p) (cyclic_lsb_bit (N.of_nat w) l (p + 1))).
(** the number of changes expected from the share of ones, and the difference *)
Definition changes_expected (w : nat) (l : list N) : R :=
  let n := INR (w * length l) in let p := ones_of w l / n in 2 * n * p * (1 - p).
Definition changes_sigma (w : nat) (l : list N) : R :=
  let n := INR (w * length l) in let p := ones_of w l / n in 2 * sqrt n * p * (1 - p).
