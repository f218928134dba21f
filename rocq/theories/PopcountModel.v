(** Models of the bit-counting code: sts_monobit, dab_monobit2, countx.c
    (libdieharder/). *)
From Verif Require Export Tally.
Open Scope N_scope.

(** sts_monobit.c:104-112 and dab_monobit2.c:64-74: the branch that is compiled
    ([if(0)] is never taken).  All operations are on uint. *)
Definition swar (n : N) : N :=
  let n := sub32 n (N.land (N.shiftr n 1) 0x55555555) in
  let n := add32 (N.land n 0x33333333) (N.land (N.shiftr n 2) 0x33333333) in
  let n := N.land (add32 n (N.shiftr n 4)) 0x0f0f0f0f in
  let n := add32 n (N.shiftr n 8) in
  N.land (add32 n (N.shiftr n 16)) 0x3f.

(** countx.c:49-61 [count]; u4 is unsigned long, 64 bits wide on the 64-bit
    Unix platforms assumed here. *)
Definition count (x : N) : N :=
  let c := x in
  let c := N.lxor c (w64 (N.shiftl c 1)) in
  let c := w64 (N.land c 0x55555555 + N.land (N.shiftr c 1) 0x55555555) in
  let c := w64 (N.land c 0x33333333 + N.land (N.shiftr c 2) 0x33333333) in
  let c := w64 (N.land c 0x0f0f0f0f + N.land (N.shiftr c 4) 0x0f0f0f0f) in
  let c := w64 (N.land c 0x00ff00ff + N.land (N.shiftr c 8) 0x00ff00ff) in
  w64 (N.land c 0x0000ffff + N.land (N.shiftr c 16) 0x0000ffff).

(** countx.c:64-70 [ftab]. *)
Definition ftab : list N :=
  [0; 0; 0; 0; 0; 0; 0; 0;  0; 0; 0; 0; 0; 0; 0; 1;  1;  1; 2; 2; 2; 2; 2; 2; 2;  2; 2; 2; 2; 2; 2; 2; 2].

Section Generator.
Variable g : nat -> N.

(** sts_monobit.c:64-116: the sum of the counts and the statistic
    [2*ptest.x - nbits].  ptest.x is a double that counts exactly; nbits is a
    uint. *)
Fixpoint monobit_sum (n c : nat) (x : N) : N :=
  match n with O => x | S m => monobit_sum m (S c) (x + swar (g c)) end.
Definition monobit (rmax_bits : N) (tsamples c : nat) : Z :=
  let nbits := mul32 rmax_bits (N.of_nat tsamples) in
  (2 * Z.of_N (monobit_sum tsamples c 0) - Z.of_N nbits)%Z.

(** dab_monobit2.c:76-84: the loop over j for word number [i] with [n] bits set.
    [tc] is tempCount (uint), [counts] the table of doubles counting exactly;
    [t] is 1<<j.  [ntup] <= 15, so the shifts are defined. *)
Fixpoint block_loop (rounds : nat) (j : N) (blens i n t : N) (tc counts : list N)
    : outcome (list N * list N) :=
  match rounds with
  | O => Ok (tc, counts)
  | S r =>
    do v <- aget tc (Z.of_N j) ;;
    let v := add32 v n in
    do tc <- aset tc (Z.of_N j) v ;;
    if negb (N.land t i =? 0) && (N.land t (sub32 i 1) =? 0) then
      do counts <- bump counts (Z.of_N (blens * (2 * 2 ^ j - 1) + v)) ;;
      do tc <- aset tc (Z.of_N j) 0 ;;
      block_loop r (j + 1) blens i n (w32 (2 * t)) tc counts
    else block_loop r (j + 1) blens i n (w32 (2 * t)) tc counts
  end.
(** dab_monobit2.c:60-86: the loop over the words.  State: i, tempCount, counts
    and the generator position. *)
Definition block_step (ntup : nat) (blens : N) (s : N * list N * list N * nat)
    : outcome (N * list N * list N * nat) :=
  let '(i, tc, counts, c) := s in
  do (tc, counts) <- block_loop ntup 0 blens i (swar (g c)) 1 tc counts ;;
  Ok (i + 1, tc, counts, S c).
(** dab_monobit2.c:52-86: the counts, for block sizes up to [ntup] (1..15). *)
Definition monobit2 (ntup : nat) (blens : N) (tsamples c : nat) : outcome (list N) :=
  do (_, _, counts, _) <- iter_o tsamples (block_step ntup blens)
     (0, repeat 0 ntup, repeat 0 (N.to_nat (blens * (2 * 2 ^ N.of_nat ntup))), c) ;;
  Ok counts.
End Generator.
