(** Model of libdieharder/chisq.c: the chi-square and likelihood-ratio tests.

    The arithmetic is a parameter (see KsModel): C doubles, or the real numbers
    they stand for.  The densities and the incomplete gamma function of the GSL
    are parameters; [Q a x] stands for gsl_sf_gamma_inc_Q(a,x).  Printing is
    left out, and malloc is taken to succeed. *)
From Verif Require Export Base DoubleModel KsModel.
Open Scope Z_scope.

Section Chisq.
Variable A : arith.
Notation T := (num A).
Variable Q : T -> T -> T.
Declare Scope num_scope.
Local Notation "x + y" := (nadd A x y) : num_scope.
Local Notation "x - y" := (nsub A x y) : num_scope.
Local Notation "x * y" := (nmul A x y) : num_scope.
Local Notation "x / y" := (ndiv A x y) : num_scope.
Delimit Scope num_scope with num.
Notation int := (nint A).

(** chisq.c:66-67, 115-116, 170, 297-298: one bin's contribution. *)
Definition delchisq (o e : T) : T := ((o - e) * (o - e) / e)%num.

(** chisq.c:55-58, 286-289: the vector of expected values. *)
Definition expected_vec (kmax : Z) (nsamp : N) (pdf : Z -> T) : outcome (list T) :=
  for_ (Z.to_nat kmax) 0 (fun k e => aset e k (int (Z.of_N nsamp) * pdf k)%num) (repeat (int 0) (Z.to_nat kmax)).

(** chisq.c:64-73, 113-122, 295-304: the sum over the bins. *)
Definition chisq_sum (observed expected : list T) (kmax : Z) : outcome T :=
  for_ (Z.to_nat kmax) 0 (fun k chisq =>
    do o <- aget observed k ;; do e <- aget expected k ;; Ok (chisq + delchisq o e)%num) (int 0).

(** chisq.c:84, 133, 315: the p-value for kmax-1 degrees of freedom. *)
Definition pearson_p (kmax : Z) (chisq : T) : T := Q (int (kmax - 1) / int 2)%num (chisq / int 2)%num.

(** chisq.c:104-140 [chisq_pearson].  A negative kmax is taken for an unsigned
    bound and the loop leaves the arrays; kmax - 1 overflows for the least int. *)
Definition chisq_pearson (observed expected : list T) (kmax : Z) : outcome T :=
  if kmax <? 0 then UB "index" else
  do chisq <- chisq_sum observed expected kmax ;;
  Ok (pearson_p kmax chisq).

(** chisq.c:44-93 [chisq_poisson]; [pdf k] stands for gsl_ran_poisson_pdf(k,lambda).
    The counts are unsigned ints. *)
Definition chisq_poisson (pdf : Z -> T) (observed : list N) (kmax : Z) (nsamp : N) : outcome T :=
  if kmax <? 0 then UB "index" else
  do expected <- expected_vec kmax nsamp pdf ;;
  do chisq <- chisq_sum (map (fun o => int (Z.of_N o)) observed) expected kmax ;;
  Ok (pearson_p kmax chisq).

(** chisq.c:275-323 [chisq_geometric]; [pdf k] stands for gsl_ran_geometric_pdf(k,prob). *)
Definition chisq_geometric (pdf : Z -> T) (observed : list N) (kmax : Z) (nsamp : N) : outcome T :=
  chisq_poisson (fun k => pdf (k + 1)) observed kmax nsamp.

(** chisq.c:149-199 [chisq_binomial]; [pdf n] stands for
    gsl_ran_binomial_pdf(n,prob,kmax).  The totals are only printed and are
    left out.  With kmax = 2^32-1 the loop has no end. *)
Definition chisq_binomial (pdf : Z -> T) (observed : list T) (kmax nsamp : N) : outcome T :=
  if (kmax =? 2 ^ 32 - 1)%N then OutOfFuel else
  do r <- for_ (N.to_nat kmax + 1) 0 (fun n s =>
            do o <- aget observed n ;;
            if ngt A o (int 10) then
              let expected := (int (Z.of_N nsamp) * pdf n)%num in
              Ok ((fst s + delchisq o expected)%num, add32 (snd s) 1)
            else Ok s) (int 0, 0%N) ;;
  let '(chisq, ndof) := r in
  Ok (Q (int (Z.of_N (sub32 ndof 1)) / int 2)%num (chisq / int 2)%num).

(** chisq.c:206-245 [chisq_uint_uniform_gtest]; [nlog] stands for log.  The
    products kmax + 1 and kmax * kmax are computed in int. *)
Definition chisq_gtest (nlog : T -> T) (observed : list N) (numItems kmax : Z) : outcome T :=
  if kmax <? 0 then UB "index" else
  let expected := (int numItems / int kmax)%num in
  do chisq <- for_ (Z.to_nat kmax) 0 (fun k chisq =>
                do o <- aget observed k ;;
                if (o =? 0)%N then Ok chisq else
                let o := int (Z.of_N o) in
                Ok (chisq + int 2 * (o * nlog (o / expected)))%num) (int 0) ;;
  if (2 ^ 31 - 1 <? kmax + 1) || (2 ^ 31 - 1 <? kmax * kmax) then UB "int overflow" else
  let q := (int 1 + int (kmax + 1) / (int 6 * int numItems) + int (kmax * kmax) / (int 6 * int numItems * int numItems))%num in
  Ok (Q (int (kmax - 1) / int 2)%num (nabs A (chisq / q)%num / int 2)%num).

(** chisq.c:251-269 [chisq2d]: the sums and indices are unsigned ints. *)
Definition row_sum (obs : list N) (columns i : N) : outcome N :=
  for_ (N.to_nat columns) 0 (fun k s => do o <- aget obs (Z.of_N (add32 (mul32 i columns) (Z.to_N k))) ;; Ok (add32 s o)) 0%N.
Definition column_sum (obs : list N) (rows columns j : N) : outcome N :=
  for_ (N.to_nat rows) 0 (fun k s => do o <- aget obs (Z.of_N (add32 (mul32 (Z.to_N k) columns) j)) ;; Ok (add32 s o)) 0%N.
Definition chisq2d (obs : list N) (rows columns n : N) : outcome T :=
  let ndof := mul32 (sub32 rows 1) (sub32 columns 1) in
  do chisq <- for_ (N.to_nat rows) 0 (fun i chisq =>
    for_ (N.to_nat columns) 0 (fun j chisq =>
      do sum1 <- row_sum obs columns (Z.to_N i) ;;
      do sum2 <- column_sum obs rows columns (Z.to_N j) ;;
      do o <- aget obs (Z.of_N (add32 (mul32 (Z.to_N i) columns) (Z.to_N j))) ;;
      let expected := (int (Z.of_N sum1) * int (Z.of_N sum2) / int (Z.of_N n))%num in
      let top := (int (Z.of_N o) - expected)%num in
      Ok (chisq + top * top / expected)%num) chisq) (int 0) ;;
  Ok (Q (int (Z.of_N ndof) / int 2)%num (chisq / int 2)%num).
End Chisq.
