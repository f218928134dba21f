(** Models of evalMostExtreme (libdieharder/dab_dct.c) and of the p-value of
    dab_monobit2 (libdieharder/dab_monobit2.c), in doubles or in exact
    arithmetic. *)
From Verif Require Export PopcountModel ChisqModel.
Open Scope N_scope.

Section Most.
Variable A : arith.
Local Notation num := (num A).

(** dab_dct.c:290-302: one p-value.  The state is ext and whether sign is 1. *)
Definition most_step (s : num * bool) (p : num) : num * bool :=
  let '(p, cursign) := if ngt A p (nlit A 5 10) then (nsub A (nint A 1) p, true) else (p, false) in
  if ngt A (fst s) p then (p, cursign) else s.
(** dab_dct.c:285-308 *)
Definition evalMostExtreme (pvalues : list num) : num :=
  let '(ext, sign) := fold_left most_step pvalues (nint A 1, true) in
  let ext := npow A (nsub A (nint A 1) ext) (Z.of_nat (length pvalues)) in
  if sign then nsub A (nint A 1) ext else ext.

(** gsl_sf_gamma_inc_Q and gsl_ran_binomial_pdf(k, 0.5, n), not modelled *)
Variable gamma_inc_Q : num -> num -> num.
Variable pdf : N -> N -> num.

(** dab_monobit2.c:40-41: the size in bits and the number of the blocks of level
    j, as unsigned ints. *)
Definition block_bits (blens j : N) : N := mul32 blens (2 * 2 ^ j).
Definition block_number (tsamples j : N) : N := tsamples / (2 * 2 ^ j).
(** dab_monobit2.c:39-44: the loop from j on, at most [rounds] rounds. *)
Fixpoint choose_ntup (rounds : nat) (j blens tsamples : N) : N :=
  match rounds with
  | O => j
  | S r =>
    if ngt A (nint A 20) (nmul A (nint A (Z.of_N (block_number tsamples j))) (pdf (block_bits blens j / 2) (block_bits blens j)))
    then j else choose_ntup r (j + 1) blens tsamples
  end.
(** dab_monobit2.c:90-91: the part of the table that chisq_binomial reads for
    level j, kmax+1 entries. *)
Definition region (blens : N) (counts : list N) (j : nat) : list N :=
  firstn (N.to_nat (block_bits blens (N.of_nat j) + 1)) (skipn (N.to_nat (blens * (2 * 2 ^ N.of_nat j - 1))) counts).
(** dab_monobit2.c:89-93: the p-value of level j. *)
Definition level_p (blens tsamples : N) (counts : list N) (j : nat) : outcome num :=
  let kmax := block_bits blens (N.of_nat j) in
  chisq_binomial A gamma_inc_Q (fun k => pdf (Z.to_N k) kmax)
    (map (fun x => nint A (Z.of_N x)) (region blens counts j)) kmax (block_number tsamples (N.of_nat j)).
Fixpoint level_ps (blens tsamples : N) (counts : list N) (n j : nat) : outcome (list num) :=
  match n with
  | O => Ok []
  | S n => do p <- level_p blens tsamples counts j ;; do ps <- level_ps blens tsamples counts n (S j) ;; Ok (p :: ps)
  end.
(** dab_monobit2.c:26-103; BLOCK_MAX is 16, blens is rmax_bits. *)
Definition dab_monobit2 (g : nat -> N) (ntuple blens : N) (tsamples c : nat) : outcome num :=
  if 16 <=? ntuple then Exit 0
  else
    let ntup := if ntuple =? 0 then choose_ntup 16 0 blens (N.of_nat tsamples) else ntuple in
    do counts <- monobit2 g (N.to_nat ntup) blens tsamples c ;;
    do ps <- level_ps blens (N.of_nat tsamples) counts (N.to_nat ntup) 0 ;;
    Ok (evalMostExtreme ps).
End Most.
