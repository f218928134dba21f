(** Model of rgb_bitdist (libdieharder/rgb_bitdist.c). *)
From Verif Require Export Tally.
Open Scope N_scope.

Section Values.
(** [v k] is result number k of get_rand_bits_uint (nb, mask, rng). *)
Variable v : nat -> N.

(** rgb_bitdist.c:224-240: the loop over b; [count] is a uint table whose
    entries stay below 65. *)
Definition bd_draw (s : list N * nat) : outcome (list N * nat) :=
  let '(count, c) := s in
  do count <- bump count (Z.of_N (v c)) ;; Ok (count, S c).

(** rgb_bitdist.c:248-261: round [i] of the scan over the values.  [vt] holds
    the x vectors of the Vtests, doubles that hold exact integers here. *)
Definition bd_scan_step (s : Z * list N * list (list Z)) : outcome (Z * list N * list (list Z)) :=
  let '(i, count, vt) := s in
  do n <- aget count i ;;
  if negb (n =? 0) then
    do count <- aset count i 0 ;;
    do row <- aget vt i ;;
    do x <- aget row (Z.of_N n) ;;
    do row <- aset row (Z.of_N n) (x + 1)%Z ;;
    do x0 <- aget row 0 ;;
    do row <- aset row 0 (x0 - 1)%Z ;;
    do vt <- aset vt i row ;;
    Ok (i + 1, count, vt)%Z
  else Ok (i + 1, count, vt)%Z.

(** rgb_bitdist.c:217-265: one round of the loop over t; [bsamples] is 64. *)
Definition bd_trial (value_max bsamples : nat) (s : list N * list (list Z) * nat)
    : outcome (list N * list (list Z) * nat) :=
  let '(count, vt, c) := s in
  do (count, c) <- iter_o bsamples bd_draw (count, c) ;;
  do (_, count, vt) <- iter_o value_max bd_scan_step (0%Z, count, vt) ;;
  Ok (count, vt, c).

(** rgb_bitdist.c:82-265: the histograms, one for each value, and the number of
    values drawn.  [pow(2,nb)] must fit a uint, and [1u << nb] needs nb < 32. *)
Definition bitdist (nb : N) (tsamples c : nat) : outcome (list (list Z) * nat) :=
  if nb =? 0 then Exit 0
  else if 32 <=? nb then UB "conversion of 2^nb"
  else
    let value_max := N.to_nat (2 ^ nb) in
    let bsamples := 64%nat in
    let row := Z.of_nat tsamples :: repeat 0%Z bsamples in
    do (_, vt, c) <- iter_o tsamples (bd_trial value_max bsamples)
       (repeat 0 value_max, repeat row value_max, c) ;;
    Ok (vt, c).
End Values.
