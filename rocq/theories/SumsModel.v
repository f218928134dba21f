(** Model of libdieharder/diehard_sums.c: overlapping sums.

    The arithmetic is a parameter (see KsModel); [u i] is the i-th uniform
    deviate drawn in the run, and [Phi] stands for gsl_cdf_gaussian_P(.,1.0).
    Printing is left out, and malloc is taken to succeed. *)
From Verif Require Export Base DoubleModel KsModel.
Open Scope Z_scope.

Section Sums.
Variable A : arith.
Notation T := (num A).
Variable Phi : T -> T.
Variable u : nat -> T.
Declare Scope num_scope.
Local Notation "x + y" := (nadd A x y) : num_scope.
Local Notation "x - y" := (nsub A x y) : num_scope.
Local Notation "x * y" := (nmul A x y) : num_scope.
Local Notation "x / y" := (ndiv A x y) : num_scope.
Delimit Scope num_scope with num.
Notation int := (nint A).
Notation sqrt := (nsqrt A).

(** diehard_sums.c:167-185: the first m deviates and their sum. *)
Definition sums_first (m : nat) : outcome (list T * list T) :=
  for_ m 0 (fun t s =>
    let '(rl, y) := s in
    do rl <- aset rl t (u (Z.to_nat t)) ;;
    do r <- aget rl t ;; do y0 <- aget y 0 ;; do y <- aset y 0 (y0 + r)%num ;; Ok (rl, y))
    (repeat (int 0) m, repeat (int 0) m).

(** diehard_sums.c:160-161, 192-211: the overlapping sums, shifted and scaled. *)
Definition sums_y (m : nat) : outcome (list T) :=
  let mz := Z.of_nat m in
  let mean := (nlit A 1 2 * int mz)%num in
  let std := sqrt (int 12) in
  do s <- sums_first m ;;
  let '(rl, y) := s in
  do y <- for_ (m - 1) 1 (fun t y =>
    let newrand := u (m + Z.to_nat t - 1) in
    do yp <- aget y (t - 1) ;; do r <- aget rl (t - 1) ;;
    do y <- aset y t (yp - r + newrand)%num ;;
    aset y (t - 1) ((yp - mean) * std)%num) y ;;
  do yl <- aget y (mz - 1) ;; aset y (mz - 1) ((yl - mean) * std)%num.

(** diehard_sums.c:224-255: the transformation of the sums. *)
Definition sums_x (m : nat) : outcome (list T) :=
  let mz := Z.of_nat m in
  do y <- sums_y m ;;
  let x := repeat (int 0) m in
  do y0 <- aget y 0 ;; do x <- aset x 0 (y0 / sqrt (int 1 * int mz))%num ;;
  do x0 <- aget x 0 ;; do y1 <- aget y 1 ;;
  do x <- aset x 1 (nneg A x0 * int (mz - 1) / sqrt (int 2 * int mz - int 1) + y1 * sqrt (int mz / (int 2 * int mz - int 1)))%num ;;
  do x0 <- aget x 0 ;; do x <- aset x 0 (Phi x0) ;;
  do x1 <- aget x 1 ;; do x <- aset x 1 (Phi x1) ;;
  for_ (m - 2) 2 (fun t x =>
    let a := (int 2 * int mz + int 1 - int t)%num in
    let b := (int 2 * a - int 2)%num in
    do y2 <- aget y (t - 2) ;; do y1 <- aget y (t - 1) ;; do yt <- aget y t ;;
    do x <- aset x t (y2 / sqrt (a * b) - y1 * sqrt ((a - int 1) / (b + int 2)) + yt * sqrt (a / b))%num ;;
    do xt <- aget x t ;; aset x t (Phi xt)) x.

(** diehard_sums.c:48-280 [diehard_sums]: the number of samples is taken for an
    int; beyond 2^31-1 it is negative and the sizes are nonsense. *)
Definition diehard_sums (srt : list T -> list T) (ks_test : N) (tsamples : N) : outcome T :=
  if (2 ^ 31 <=? tsamples)%N then UB "negative size" else
  do x <- sums_x (N.to_nat tsamples) ;;
  do r <- kstest A srt ks_test x (Z.of_N tsamples) ;; Ok (fst r).
End Sums.
