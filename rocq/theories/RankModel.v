(** Model of binary_rank (libdieharder/rank.c) and of its use in the rank
    tests.  The matrix is a list of rows, a row a list of 32-bit words.  The
    program swaps row pointers; since the rows are separate objects this is a
    swap of rows.  Verbose output is left out. *)
From Verif Require Export Base.
Open Scope Z_scope.

Notation matrix := (list (list N)).

(** [mtx[k][c] & mask] *)
Definition cell (mtx : matrix) (k c : Z) (mask : N) : outcome N :=
  do r <- aget mtx k ;; do w <- aget r c ;; Ok (N.land w mask).

(** rank.c:100-107: [for(k=i;k<mrows;k++) if(mtx[k][col_ind]&mask) break;]
    Fuel: at least mrows - i + 1 rounds. *)
Fixpoint find_pivot (fuel : nat) (mtx : matrix) (k mrows c : Z) (mask : N) : outcome Z :=
  match fuel with
  | O => OutOfFuel
  | S fuel' =>
    if k <? mrows then
      do b <- cell mtx k c mask ;;
      if (b =? 0)%N then find_pivot fuel' mtx (k + 1) mrows c mask else Ok k
    else Ok k
  end.

(** rank.c:170-176: [while (n >= 0){ mtx[k][n] ^= mtx[i][n]; n--; }], here
    with [n+1] words left to do. *)
Fixpoint xor_words (words : nat) (ri rk : list N) : outcome (list N) :=
  match words with
  | O => Ok rk
  | S n =>
    do a <- aget rk (Z.of_nat n) ;;
    do b <- aget ri (Z.of_nat n) ;;
    do rk <- aset rk (Z.of_nat n) (N.lxor a b) ;;
    xor_words n ri rk
  end.

(** rank.c:155-184: the elimination loop from row [k] on.
    [n = uint_col_max - col_ind]. *)
Fixpoint eliminate (fuel : nat) (mtx : matrix) (i k mrows c cmax : Z) (mask : N)
    : outcome matrix :=
  match fuel with
  | O => OutOfFuel
  | S fuel' =>
    if k <? mrows then
      do b <- cell mtx k c mask ;;
      do mtx <- (if (b =? 0)%N then Ok mtx
                 else do ri <- aget mtx i ;; do rk <- aget mtx k ;;
                      do rk <- xor_words (Z.to_nat (cmax - c + 1)) ri rk ;;
                      aset mtx k rk) ;;
      eliminate fuel' mtx i (k + 1) mrows c cmax mask
    else Ok mtx
  end.

(** rank.c:78-196: the loop over the bit columns; [fuel] = ncols + 1. *)
Fixpoint rank_loop (fuel : nat) (mtx : matrix) (i j mrows ncols cmax : Z) (mask : N)
    : outcome Z :=
  match fuel with
  | O => OutOfFuel
  | S fuel' =>
    if (j <? ncols) && (i <? mrows) then
      let c := j / 32 in
      let mask := if negb (j mod 32 =? 0) then w32 (N.shiftl mask 1) else 1%N in
      do k <- find_pivot (S (Z.to_nat (mrows - i))) mtx i mrows c mask ;;
      if k <? mrows then
        do mtx <- (if negb (i =? k) then
                     do ri <- aget mtx i ;; do rk <- aget mtx k ;;
                     do mtx <- aset mtx i rk ;; aset mtx k ri
                   else Ok mtx) ;;
        do mtx <- eliminate (S (Z.to_nat (mrows - k))) mtx i (k + 1) mrows c cmax mask ;;
        rank_loop fuel' mtx (i + 1) (j + 1) mrows ncols cmax mask
      else rank_loop fuel' mtx i (j + 1) mrows ncols cmax mask
    else Ok i
  end.

(** rank.c:31-201 [binary_rank].  The C division (ncols-1)/32 truncates; it is
    only used when ncols >= 1, where it agrees with Z division. *)
Definition binary_rank (mtx : matrix) (mrows ncols : Z) : outcome Z :=
  rank_loop (S (Z.to_nat ncols)) mtx 0 0 mrows ncols ((ncols - 1) / 32) 1.

(** diehard_rank_32x32.c:84-121 and diehard_rank_6x8.c:78-108: one matrix per
    sample; ranks up to [lo] share one counter.  [rows] are the words drawn for
    this sample, [counts] the array vtest.x. *)
Definition rank_sample (nrows ncols lo : Z) (rows : list N) (counts : list N) : outcome (list N) :=
  do r <- binary_rank (map (fun w => [w]) rows) nrows ncols ;;
  let slot := if r <=? lo then lo else r in
  do c <- aget counts slot ;; aset counts slot (c + 1)%N.
