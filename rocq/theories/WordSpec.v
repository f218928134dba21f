(** Specification vocabulary for words made of pieces of generator results. *)
From Verif Require Export BitsSpec.
Open Scope N_scope.

(** [n] bits of the w-bit word [x] from bit [off] up (least significant first),
    going round at the top: bit [k] of the result is bit (off+k) mod w of x. *)
Definition around (w x off : N) (n : nat) : N :=
  number_of_bits (fun k => N.testbit x ((off + k) mod w)) n.

(** [n] consecutive bits of [x] from bit [off] up. *)
Definition field (x off n : N) : N := (x / 2 ^ off) mod 2 ^ n.

(** Letters of [b] bits strung together, first letter most significant. *)
Definition spell (b : N) (letters : list N) : N := fold_left (fun acc l => acc * 2 ^ b + l) letters 0.

(** How many different elements a list has. *)
Definition distinct (l : list N) : N := N.of_nat (length (nodup N.eq_dec l)).

(** How often [x] occurs in a list. *)
Fixpoint times (x : N) (l : list N) : N :=
  match l with [] => 0 | a :: r => (if a =? x then 1 else 0) + times x r end.

(** ** The words the sparse-occupancy tests look at, numbered from 0.  [g i] is
    the i-th result of the generator, [c] the number of results drawn before. *)

(** OPSO: two results serve two words, from bits 0..9 and bits 10..19. *)
Definition opso_word (g : nat -> N) (c t : nat) : N :=
  let x := g (c + 2 * (t / 2))%nat in
  let y := g (c + 2 * (t / 2) + 1)%nat in
  let off := 10 * N.of_nat (t mod 2) in
  spell 10 [field x off 10; field y off 10].

(** OQSO: four results serve six words of four 5-bit letters. *)
Definition oqso_word (g : nat -> N) (c t : nat) : N :=
  let off := 5 * N.of_nat (t mod 6) in
  spell 5 (map (fun i => field (g (c + 4 * (t / 6) + i)%nat) off 5) (seq 0 4)).

(** DNA: ten results serve 32 words of ten 2-bit letters, each result of [w]
    bits read cyclically. *)
Definition dna_word (w : N) (g : nat -> N) (c t : nat) : N :=
  spell 2 (map (fun i => around w (g (c + 10 * (t / 32) + i)%nat) (N.of_nat (t mod 32)) 2) (seq 0 10)).

(** Bit [p] of the stream of 32-bit results, most significant bit first. *)
Definition bit_at (g : nat -> N) (p : N) : bool := N.testbit (g (N.to_nat (p / 32))) (31 - p mod 32).

(** Bitstream: word t is the 20-bit window that starts at bit t+8. *)
Definition stream_word (g : nat -> N) (c t : nat) : N :=
  window_value (bit_at (fun i => g (c + i)%nat)) (N.of_nat t + 8) 20.

(** dab_opso2: 24-bit words; the low 24 bits of every result, and pairs of
    12-bit letters of two results serving two words. *)
Definition opso2_single (g : nat -> N) (c t : nat) : N := field (g (c + t)%nat) 0 24.
Definition opso2_pair (g : nat -> N) (c t : nat) : N :=
  let x := g (c + 2 * (t / 2))%nat in
  let y := g (c + 2 * (t / 2) + 1)%nat in
  let off := 12 * N.of_nat (t mod 2) in
  spell 12 [field x off 12; field y off 12].
