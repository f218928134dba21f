(** Counting bit matrices by rank. *)
From Verif Require Export RankSpec Tally.
Import ListNotations.
Open Scope N_scope.

(** The words of [w] bits, and the lists of [m] of them. *)
Definition words (w : N) : list N := map N.of_nat (seq 0 (N.to_nat (2 ^ w))).
Fixpoint matrices (w : N) (m : nat) : list (list N) :=
  match m with
  | O => [[]]
  | S m => flat_map (fun rows => map (fun r => r :: rows) (words w)) (matrices w m)
  end.
(** The number of lists of [m] words of [w] bits with a property: divided by
    2^(w m), its probability when all lists are equally likely. *)
Definition number (w : N) (m : nat) (p : list N -> bool) : N := countp p (matrices w m).

(** (2^a - 1)(2^a - 2)(2^a - 4)...: the number of linearly independent
    sequences of r vectors of a bits *)
Fixpoint frames (a r : nat) : Z :=
  match r with O => 1%Z | S r => (frames a r * (2 ^ Z.of_nat a - 2 ^ Z.of_nat r))%Z end.

(** A decimal fraction [digits/scale] is the number count/total rounded to the
    nearest multiple of 1/scale. *)
Definition rounded (digits scale : Z) (count total : N) : Prop :=
  (2 * Z.abs (digits * Z.of_N total - Z.of_N count * scale) <= Z.of_N total)%Z.
