(** The statistics and p-values of sts_monobit, sts_runs, sts_serial and of the
    two count-the-1s tests (libdieharder/), in doubles or in exact arithmetic. *)
From Verif Require Export PopcountModel SerialModel CountOnesModel XtestModel VtestArith.
Open Scope N_scope.

Section BitStat.
Variable A : arith.
Local Notation num := (num A).
(** >= *)
Variable ge : num -> num -> bool.
(** gsl_cdf_gaussian_P and gsl_sf_gamma_inc_Q, not modelled *)
Variable gaussian_P : num -> num -> num.
Variable gamma_inc_Q : num -> num -> num.

Definition of_N (x : N) : num := nint A (Z.of_N x).

(** sts_monobit.c:34-131, without the output *)
Definition sts_monobit_xtest (g : nat -> N) (rmax_bits : N) (tsamples c : nat) : Xtest A :=
  {| xt_x := nint A (monobit g rmax_bits tsamples c); xt_y := nint A 0;
     xt_sigma := nsqrt A (of_N (mul32 rmax_bits (N.of_nat tsamples))) |}.
Definition sts_monobit (g : nat -> N) (rmax_bits : N) (tsamples c : nat) : num :=
  Xtest_eval A gaussian_P (sts_monobit_xtest g rmax_bits tsamples c).

(** sts_runs.c:97-107 after the loop: the shares c00, c01, c10 and c11 are only
    printed.  [w] is rmax_bits. *)
Definition sts_runs_xtest (w : N) (words : list N) : outcome (Xtest A) :=
  do (x, ones, _, _) <- sts_runs w words ;;
  let bits := of_N (mul32 w (N.of_nat (length words))) in
  let pones := ndiv A (of_N ones) (nmul A (of_N (N.of_nat (length words))) (of_N w)) in
  Ok {| xt_x := of_N x;
        xt_y := nmul A (nmul A (nmul A (nint A 2) bits) pones) (nsub A (nint A 1) pones);
        xt_sigma := nmul A (nmul A (nmul A (nint A 2) (nsqrt A bits)) pones) (nsub A (nint A 1) pones) |}.
(** sts_runs.c:21-124 *)
Definition sts_runs_pvalue (w : N) (words : list N) : outcome num :=
  do t <- sts_runs_xtest w words ;; Ok (Xtest_eval A gaussian_P t).

(** pow(2,m) *)
Definition pow2 (m : N) : num := npow A (nint A 2) (Z.of_N m).
(** sts_serial.c:280-286: psi2[m].  The loop over i ends at pow(2,m), the
    number of cells of freq[m]. *)
Definition serial_psi2 (bsize m : N) (freq : list N) : num :=
  let sum := fold_left (fun s x => nadd A s (nmul A (of_N x) (of_N x))) freq (nint A 0) in
  nsub A (ndiv A (nmul A (pow2 m) sum) (of_N bsize)) (of_N bsize).
(** sts_serial.c:209-272: freq[m], freq[m+1], ..., [k] tables.  [window] keeps
    what the last table left in it; its value is overwritten before it is read,
    so every table starts from the same unspecified value. *)
Fixpoint serial_tables (window0 : N) (words : list N) (k : nat) (m : N) : outcome (list (list N)) :=
  match k with
  | O => Ok []
  | S k => do freq <- serial_freq window0 m words ;; do rest <- serial_tables window0 words k (m + 1) ;; Ok (freq :: rest)
  end.
(** sts_serial.c:303-324: the p-values for [m], [m]+1, ... from psi2. *)
Fixpoint serial_pvalues (psi2 : list num) (k : nat) (m : N) : outcome (list num) :=
  match k with
  | O => Ok []
  | S k =>
    do p0 <- aget psi2 (Z.of_N m) ;;
    do p1 <- aget psi2 (Z.of_N (m - 1)) ;;
    do p2 <- aget psi2 (Z.of_N (m - 2)) ;;
    let delpsi2 := nsub A p0 p1 in
    let del2psi2 := nadd A (nsub A p0 (nmul A (nint A 2) p1)) p2 in
    let first := gamma_inc_Q (pow2 (m - 2)) (ndiv A delpsi2 (nint A 2)) in
    do rest <- serial_pvalues psi2 k (m + 1) ;;
    if 2 <? m then Ok (first :: gamma_inc_Q (pow2 (m - 3)) (ndiv A del2psi2 (nint A 2)) :: rest)
    else Ok (first :: rest)
  end.
(** sts_serial.c:84-337 on the words drawn, without the output: the p-values of
    test[0], test[1], ...  psi2[0] is zero. *)
Definition sts_serial (window0 : N) (words : list N) : outcome (list num) :=
  let bsize := mul32 (N.of_nat (length words)) 32 in
  do freq <- serial_tables window0 words 16 1 ;;
  let psi2 := nint A 0 :: map (fun mf => serial_psi2 bsize (N.of_nat (fst mf)) (snd mf)) (combine (seq 1 16) freq) in
  do freq1 <- aget freq 0 ;;
  do zeros <- aget freq1 0 ;;
  let mono_mean := nsub A (nmul A (nint A 2) (of_N zeros)) (of_N bsize) in
  let mono_sigma := nsqrt A (of_N bsize) in
  do rest <- serial_pvalues psi2 15 2 ;;
  Ok (gaussian_P mono_mean mono_sigma :: rest).

(** diehard_count_1s_stream.c:139-144 [ps], diehard_count_1s_byte.c:143-148 [pb] *)
Definition psA : list num :=
  [nlit A 144531250 (10 ^ 9); nlit A 218750000 (10 ^ 9); nlit A 273437500 (10 ^ 9); nlit A 218750000 (10 ^ 9); nlit A 144531250 (10 ^ 9)].
(** diehard_count_1s_stream.c:206-226 and 234-254, diehard_count_1s_byte.c:206-226
    and 233-252: y[i], over [k] base-5 digits of [j] *)
Fixpoint expectedA (k : nat) (y : num) (j : N) : outcome num :=
  match k with
  | O => Ok y
  | S k => do p <- aget psA (Z.of_N (j mod 5)) ;; expectedA k (nmul A y p) (j / 5)
  end.
Fixpoint cellsA (k : nat) (tsamples : nat) (i : N) (xs : list N) : outcome (list (num * num)) :=
  match xs with
  | [] => Ok []
  | x :: xs =>
    do y <- expectedA k (of_N (N.of_nat tsamples)) i ;;
    do rest <- cellsA k tsamples (i + 1) xs ;;
    Ok ((of_N x, y) :: rest)
  end.
(** diehard_count_1s_stream.c:201-205, 232-233 and 401-408, the same code in the byte
    test: ptest for the tables of counts.  Both Vtests have cutoff 5 and ndof 0. *)
Definition count_xtest (tsamples : nat) (x4 x5 : list N) : outcome (Xtest A) :=
  do cells4 <- cellsA 4 tsamples 0 x4 ;;
  do cells5 <- cellsA 5 tsamples 0 x5 ;;
  do (_, chisq4, _) <- Vtest_evalA A ge cells4 (nint A 5) 0 ;;
  do (_, chisq5, _) <- Vtest_evalA A ge cells5 (nint A 5) 0 ;;
  Ok {| xt_x := nsub A chisq5 chisq4; xt_y := nint A 2500; xt_sigma := nsqrt A (nint A 5000) |}.
(** diehard_count_1s_stream.c:148-420, without the output *)
Definition diehard_count_1s_stream (g : nat -> N) (tsamples c : nat) : outcome num :=
  do (x4, x5, _) <- count_stream g tsamples c ;;
  do t <- count_xtest tsamples x4 x5 ;; Ok (Xtest_eval A gaussian_P t).
(** diehard_count_1s_byte.c:158-327, without the output *)
Definition diehard_count_1s_byte (g : nat -> N) (tsamples c : nat) : outcome num :=
  do (x4, x5, _) <- count_byte g tsamples c ;;
  do t <- count_xtest tsamples x4 x5 ;; Ok (Xtest_eval A gaussian_P t).
End BitStat.
