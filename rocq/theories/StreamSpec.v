(** Independent specification of bit streams. *)
From Verif Require Export BitsSpec.
Open Scope N_scope.

(** Bit [p] of the stream made of the w-bit words g 0, g 1, ..., most
    significant bit of each word first. *)
Definition stream_msb (g : N -> N) (w p : N) : bool :=
  N.testbit (g (p / w)) (w - 1 - p mod w).

(** The same with the least significant bit of each word first. *)
Definition stream_lsb (g : N -> N) (w p : N) : bool :=
  N.testbit (g (p / w)) (p mod w).

(** The [n] stream bits from position [p] on, as a number with the first bit
    least significant. *)
Definition lsb_value (bit : N -> bool) (p : N) (n : nat) : N :=
  number_of_bits (fun k => bit (p + k)) n.

(** Cut consecutive pieces of the given lengths off a stream, from [p] on. *)
Fixpoint pieces {A} (take : N -> N -> A) (p : N) (lens : list N) : list A :=
  match lens with
  | [] => []
  | n :: rest => take p n :: pieces take (p + n) rest
  end.

(** What get_uint_rand really returns for a generator of w < 32 bits: call
    number [j] yields stream bits 32j .. 32j+31, but whenever a generator word
    ended exactly at bit 32j the previous result is added in. *)
Fixpoint uint_rand_word (g : N -> N) (w : N) (j : nat) : N :=
  let s := lsb_value (stream_lsb g w) (32 * N.of_nat j) 32 in
  match j with
  | O => s
  | S i => if (32 * N.of_nat j) mod w =? 0
           then (uint_rand_word g w i + s) mod 2 ^ 32 else s
  end.

(** The [m] 32-bit words of a number, most significant word first. *)
Definition be_words (m : nat) (v : N) : list N :=
  map (fun j => (v / 2 ^ (32 * N.of_nat (m - 1 - j))) mod 2 ^ 32) (seq 0 m).
