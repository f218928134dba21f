(** Specification of the count-the-1s tests. *)
From Verif Require Export WordSpec.
Open Scope N_scope.

(** Number of 1 bits among the lowest [n] bits. *)
Fixpoint ones (n : nat) (x : N) : N :=
  match n with
  | O => 0
  | S m => (if N.testbit x (N.of_nat m) then 1 else 0) + ones m x
  end.

(** The letter of a byte: 0 for up to two 1 bits, then 1, 2, 3 for three, four
    and five, 4 for six and more. *)
Definition letter (x : N) : N :=
  let o := ones 8 x in if o <=? 2 then 0 else if 6 <=? o then 4 else o - 2.

(** Letter [k] of the stream: the bytes of each number, low byte first. *)
Definition stream_letter (g : nat -> N) (c k : nat) : N :=
  letter (field (g (c + k / 4)%nat) (8 * N.of_nat (k mod 4)) 8).

(** Letters as the digits of a number in base 5, first digit first. *)
Definition base5 (letters : list N) : N := fold_left (fun acc l => acc * 5 + l) letters 0.

(** Overlapping words of five and of four letters. *)
Definition word5 (g : nat -> N) (c t : nat) : N := base5 (map (stream_letter g c) (seq t 5)).
Definition word4 (g : nat -> N) (c t : nat) : N := base5 (map (stream_letter g c) (seq (S t) 4)).

(** The byte test: five numbers per word, of each the byte that starts at bit
    t mod 32. *)
Definition byte_letter (g : nat -> N) (c t i : nat) : N :=
  letter (around 32 (g (c + 5 * t + i)%nat) (N.of_nat (t mod 32)) 8).
Definition byte_word5 (g : nat -> N) (c t : nat) : N := base5 (map (byte_letter g c t) (seq 0 5)).
Definition byte_word4 (g : nat -> N) (c t : nat) : N := base5 (map (byte_letter g c t) (seq 1 4)).
