(** Model of libdieharder/dab_dct.c: the discrete cosine transform test.

    The arithmetic is a parameter (see KsModel); so are the cosine, the number
    pi, and from the GSL gsl_fft_real_radix2_transform, gsl_cdf_gaussian_P,
    gsl_sf_gamma_inc_Q and gsl_sort.  malloc is taken to succeed. *)
From Verif Require Export TreeModel KsModel ChisqModel XtestModel.
Open Scope Z_scope.

Section Dct.
Variable A : arith.
Local Notation T := (num A).
Variable ncos : T -> T.
Variable npi : T.
Variable fft : list T -> outcome (list T).
Variable gaussian_P : T -> T -> T.
Variable Q : T -> T -> T.
Variable srt : list T -> list T.
Declare Scope num_scope.
Local Notation "x + y" := (nadd A x y) : num_scope.
Local Notation "x - y" := (nsub A x y) : num_scope.
Local Notation "x * y" := (nmul A x y) : num_scope.
Local Notation "x / y" := (ndiv A x y) : num_scope.
Delimit Scope num_scope with num.
Notation int := (nint A).

(** dab_dct.c:245-254 [fDCT2] *)
Definition fDCT2 (input : list N) (len : nat) : outcome (list T) :=
  for_ len 0 (fun i output =>
    for_ len 0 (fun j output =>
      do o <- aget output i ;; do x <- aget input j ;;
      aset output i (o + int (Z.of_N x) * ncos (npi / int (Z.of_nat len) * (nlit A 5 10 + int j) * int i))%num) output)
    (repeat (int 0) len).

(** dab_dct.c:209-236 [fDCT2_fft]; the loop counters are ints, len is below 2^29. *)
Definition fDCT2_fft (input : list N) (len : nat) : outcome (list T) :=
  if (len <=? 4)%nat then fDCT2 input len else
  let l := Z.of_nat len in
  do d <- for_ len 0 (fun i d => do x <- aget input i ;; aset d (2 * i + 1) (int (Z.of_N x))) (repeat (int 0) (4 * len)) ;;
  do d <- for_ (2 * len - 1) 1 (fun i d => do x <- aget d i ;; aset d (4 * l - i) x) d ;;
  do d <- fft d ;;
  for_ len 0 (fun i out => do x <- aget d i ;; aset out i (x / int 2)%num) (repeat (int 0) len).

(** dab_dct.c:268-278 [iDCT2], not called by the test; [len / 2] is a division
    of integers. *)
Definition iDCT2 (input : list T) (len : nat) : outcome (list T) :=
  for_ len 0 (fun i output =>
    do sum <- for_ len 0 (fun j sum =>
      do x <- aget input j ;;
      Ok (sum + x * ncos (npi * int j / int (Z.of_nat len) * (nlit A 5 10 + int i)))%num) (int 0) ;;
    do x0 <- aget input 0 ;;
    aset output i ((sum - x0 / int 2) / int (Z.of_nat (len / 2)))%num) (repeat (int 0) len).

(** dab_dct.c:87: [1<<(rmax_bits-1)]; with 32 bits the shift of a signed 1
    leaves the int, it is taken to give 2^31. *)
Definition dct_v (w : N) : Z := (2 ^ (Z.of_N w - 1)).
(** dab_dct.c:88 *)
Definition dct_mean (len : nat) (w : N) : T := (int (Z.of_nat len) * (int (dct_v w) - nlit A 5 10))%num.
(** dab_dct.c:105 *)
Definition dct_sd (len : nat) (w : N) : T := (nsqrt A (nlit A 1 1 / nlit A 6 1 * int (Z.of_nat len)) * int (dct_v w))%num.

(** dab_dct.c:145-150: the transform of one vector, its first value adjusted *)
Definition dct_of (len : nat) (w : N) (input : list N) : outcome (list T) :=
  do dct <- fDCT2_fft input len ;;
  do d0 <- aget dct 0 ;; do dct <- aset dct 0 (d0 - dct_mean len w)%num ;;
  do d0 <- aget dct 0 ;; aset dct 0 (d0 / nsqrt A (int 2))%num.

(** dab_dct.c:129-130, 153-159: the position of the largest value *)
Definition dct_position (len : nat) (dct : list T) : outcome (Z * T) :=
  for_ len 0 (fun i s => do d <- aget dct i ;; if ngt A (nabs A d) (snd s) then Ok (i, nabs A d) else Ok s) (0, int 0).

(** dab_dct.c:116, 152-161: the primary method; the counts are doubles *)
Definition dct_primary (len : nat) (w : N) (inputs : list (list N)) : outcome (list T) :=
  fold_left (fun counts input =>
    do counts <- counts ;; do dct <- dct_of len w input ;; do s <- dct_position len dct ;;
    do n <- aget counts (fst s) ;; aset counts (fst s) (n + int 1)%num) inputs (Ok (repeat (int 0) len)).

(** dab_dct.c:120-122, 163-168: the p-values of the fallback, in order; j*len + i is an
    unsigned int, taken not to wrap *)
Definition dct_pvalues (len : nat) (w : N) (dct : list T) : outcome (list T) :=
  for_ len 0 (fun i ps => do d <- aget dct i ;; Ok (ps ++ [gaussian_P (nlit A 0 1 - d / dct_sd len w)%num (nlit A 1 1)])) [].
Definition dct_fallback (len : nat) (w : N) (inputs : list (list N)) : outcome (list T) :=
  fold_left (fun ps input =>
    do ps <- ps ;; do dct <- dct_of len w input ;; do p <- dct_pvalues len w dct ;; Ok (ps ++ p)) inputs (Ok []).

(** dab_dct.c:79-195; [kst] is the option ks_test *)
Definition dct_len (ntuple : nat) : nat := if (ntuple =? 0)%nat then 256%nat else ntuple.
Definition dct_uses_fallback (len : nat) (tsamples : N) : bool := negb (mul32 5 (N.of_nat len) <? tsamples)%N.
Definition dab_dct (kst : N) (g : nat -> N) (w : N) (ntuple tsamples c : nat) : outcome (T * nat) :=
  let len := dct_len ntuple in
  do (inputs, c) <- dct_inputs g len w tsamples c ;;
  if dct_uses_fallback len (N.of_nat tsamples) then
    do ps <- dct_fallback len w inputs ;; do p <- kstest A srt kst ps (Z.of_nat (len * tsamples)) ;; Ok (fst p, c)
  else
    do counts <- dct_primary len w inputs ;;
    let expected := repeat (int (Z.of_nat tsamples) / int (Z.of_nat len))%num len in
    do p <- chisq_pearson A Q counts expected (Z.of_nat len) ;; Ok (p, c).
End Dct.
