(** Independent specification vocabulary for bit strings. *)
From Verif Require Export Base.
Open Scope N_scope.

(** Bit [k] of a 32-bit word counted from the most significant end (bit 0 is
    the sign bit), as in the comments of bits.c. *)
Definition msb (x k : N) : bool := N.testbit x (31 - k).

(** The number whose bit [k] (least significant first) is [f k], for k < n. *)
Fixpoint number_of_bits (f : N -> bool) (n : nat) : N :=
  match n with
  | O => 0
  | S m => number_of_bits f m + (if f (N.of_nat m) then 2 ^ N.of_nat m else 0)
  end.

(** Bit [p] of an infinite cyclic bit string stored in an array of words of
    [width] bits with the last word least significant, read cyclically. *)
Definition cyclic_lsb_bit (width : N) (words : list N) (p : N) : bool :=
  let p := p mod (width * N.of_nat (length words)) in
  N.testbit (nth (length words - 1 - N.to_nat (p / width)) words 0) (p mod width).

(** Bit [p] of a bit string stored in an array of 32-bit words, first word
    first, most significant bit first, read cyclically. *)
Definition cyclic_msb_bit (words : list N) (p : N) : bool :=
  let p := p mod (32 * N.of_nat (length words)) in
  msb (nth (N.to_nat (p / 32)) words 0) (p mod 32).

(** The binary numeral of [x] in [n] characters ('0' is 48, '1' is 49), bit
    [n-1] first. *)
Fixpoint binary_text (x : N) (n : nat) : list Z :=
  match n with
  | O => []
  | S m => (if N.testbit x (N.of_nat m) then 49%Z else 48%Z) :: binary_text x m
  end.

(** The number stored in an array of 32-bit words, most significant word
    first. *)
Definition big_endian_value (ws : list N) : N :=
  fold_left (fun acc w => acc * 2 ^ 32 + w) ws 0.

(** The [n] bits offset, offset+1, ..., offset+n-1 of a bit string, read as one
    number with bit [offset] most significant. *)
Definition window_value (bit : N -> bool) (offset : N) (n : nat) : N :=
  number_of_bits (fun k => bit (offset + N.of_nat n - 1 - k)) n.
