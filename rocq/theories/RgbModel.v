(** Models of dab_bytedistrib, rgb_permutations, rgb_persist and
    rgb_lagged_sums (libdieharder/). *)
From Verif Require Export Tally.
Open Scope N_scope.

Section Generator.
Variable g : nat -> N.

(** ** dab_bytedistrib *)

(** dab_bytedistrib.c:49-74: round [j] of the loop over the three bytes of a
    word.  shiftAmount and currentShift are unsigned chars, the expression is
    computed with 32-bit unsigned wrap-around; the difference of two unsigned
    chars is an int, so a negative or too large shift count is possible. *)
Definition byte_step (w i : N) (s : N * N * N * list N) : outcome (N * N * N * list N) :=
  let '(j, word, current, counts) := s in
  let amount := (mul32 (j + 1) (sub32 w 8) / (3 - 1)) mod 256 in
  let v := N.land word 0xff in
  if (amount <? current) || (32 <=? amount - current) then UB "shift count"
  else
    let word := N.shiftr word (amount - current) in
    let current := (current + amount) mod 256 in
    do counts <- bump counts (Z.of_N (v * 9 + i * 3 + j)) ;;
    Ok (j + 1, word, current, counts).
(** dab_bytedistrib.c:42-75: round [i] of the loop over the three words. *)
Definition word_step (w : N) (s : N * list N * nat) : outcome (N * list N * nat) :=
  let '(i, counts, c) := s in
  do (_, _, _, counts) <- iter_o 3 (byte_step w i) (0, g c, 0, counts) ;;
  Ok (i + 1, counts, S c).
Definition bytes_sample (w : N) (s : list N * nat) : outcome (list N * nat) :=
  let '(counts, c) := s in
  do (_, counts, c) <- iter_o 3 (word_step w) (0, counts, c) ;;
  Ok (counts, c).
(** dab_bytedistrib.c:33-76: the table of counts; [w] is rmax_bits. *)
Definition bytedistrib (w : N) (tsamples c : nat) : outcome (list N * nat) :=
  iter_o tsamples (bytes_sample w) (repeat 0 (256 * 9), c).

(** ** rgb_permutations *)

(** gsl_sort_index and the table made with gsl_permutation_init/next are
    parameters: [sort_index] maps the numbers to the list of indices, [lookup]
    is the table of permutations. *)
Variable sort_index : list N -> list nat.
Variable lookup : list (list nat).

(** rgb_permutations.c:119-129: the index of the first equal permutation;
    permindex keeps its value when there is none. *)
Fixpoint find_perm (i : nat) (l : list (list nat)) (ps : list nat) (permindex : nat) : nat :=
  match l with
  | [] => permindex
  | p :: r => if list_eq_dec Nat.eq_dec ps p then i else find_perm (S i) r ps permindex
  end.
(** rgb_permutations.c:98-136: one sample. *)
Fixpoint tuple (n c : nat) : list N := match n with O => [] | S m => g c :: tuple m (S c) end.
Definition perm_step (k : nat) (s : list N * nat * nat) : outcome (list N * nat * nat) :=
  let '(x, permindex, c) := s in
  let ps := sort_index (tuple k c) in
  let permindex := find_perm 0 lookup ps permindex in
  do x <- bump x (Z.of_nat permindex) ;;
  Ok (x, permindex, (c + k)%nat).
(** rgb_permutations.c:40-48: k and the number of permutations.  The double k!
    is converted to uint: undefined from 13! = 6227020800 on (gsl_sf_fact is an
    error beyond 170, also modelled as undefined). *)
Fixpoint factorial (n : nat) : N := match n with O => 1 | S m => N.of_nat (S m) * factorial m end.
Definition perm_size (ntuple : nat) : nat := if (ntuple <? 2)%nat then 5%nat else ntuple.
Definition permutations (ntuple tsamples c : nat) : outcome (list N * nat) :=
  let k := perm_size ntuple in
  if 2 ^ 32 <=? factorial k then UB "conversion of k!"
  else
    do (x, _, c) <- iter_o tsamples (perm_step k) (repeat 0 (N.to_nat (factorial k)), 0%nat, c) ;;
    Ok (x, c).
End Generator.

(** ** rgb_persist *)

(** rgb_persist.c:50-75: the mask of one sample, from the 256 numbers drawn. *)
Definition not32 (x : N) : N := N.lxor x (2 ^ 32 - 1).
Definition persist_sample (rmax_mask : N) (numbers : list N) : outcome N :=
  do last <- aget numbers 0 ;;
  let start := not32 (N.lxor last last) in
  Ok (N.land (fold_left (fun m x => N.land m (not32 (N.lxor last x))) numbers start) rmax_mask).
(** rgb_persist.c:39-78: the cumulative mask; [samples] are the numbers drawn in
    each of the psamples rounds, after seeding. *)
Fixpoint persist (rmax_mask : N) (samples : list (list N)) (cumulative : N) : outcome N :=
  match samples with
  | [] => Ok cumulative
  | s :: r => do m <- persist_sample rmax_mask s ;; persist rmax_mask r (N.lor cumulative m)
  end.

(** ** rgb_lagged_sums *)

(** rgb_lagged_sums.c:71-84: [u] are the results of gsl_rng_uniform, [add] the
    floating-point addition; the generator position is part of the result. *)
Section Lagged.
Context {A : Type} (add : A -> A -> A) (u : nat -> A).
Fixpoint skip (lag c : nat) : nat := match lag with O => c | S m => skip m (S c) end.
Fixpoint lagged (lag n : nat) (x : A) (c : nat) : A * nat :=
  match n with
  | O => (x, c)
  | S m => let c := skip lag c in lagged lag m (add x (u c)) (S c)
  end.
End Lagged.
