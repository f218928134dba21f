(** Model of the p-value stage of diehard_birthdays and dab_birthdays1
    (libdieharder/), in doubles or in exact arithmetic. *)
From Verif Require Export BirthdaysModel ChisqModel.

Section Stat.
Variable A : arith.
Local Notation num := (num A).
(** gsl_sf_gamma_inc_Q, gsl_ran_poisson_pdf(k,lambda), not modelled *)
Variable gamma_inc_Q : num -> num -> num.
Variable pdf : num -> Z -> num.
(** gsl_sort_uint and the numbers drawn *)
Variable srt : list N -> list N.
Variable g : nat -> N.

(** diehard_birthdays.c:87, dab_birthdays1.c:87 *)
Definition birthdays_lambda (nms nbits : nat) : num :=
  ndiv A (nmul A (nmul A (nint A (Z.of_nat nms)) (nint A (Z.of_nat nms))) (nint A (Z.of_nat nms))) (npow A (nint A 2) (Z.of_nat nbits + 2)).
(** diehard_birthdays.c:101-106, dab_birthdays1.c:102-109: the loop from k on and
    the final increment.  The number of rounds is fuel. *)
Fixpoint birthdays_kmax (fuel : nat) (lambda : num) (tsamples : nat) (k : nat) : outcome nat :=
  match fuel with
  | O => OutOfFuel
  | S f =>
    if ngt A (nmul A (nint A (Z.of_nat tsamples)) (pdf lambda (Z.of_nat k))) (nint A 5)
    then birthdays_kmax f lambda tsamples (S k) else Ok (S k)
  end.
(** diehard_birthdays.c:79-245, dab_birthdays1.c:82-228 *)
Definition birthdays_p (fuel nms nbits tsamples c : nat) : outcome num :=
  let lambda := birthdays_lambda nms nbits in
  do kmax <- birthdays_kmax fuel lambda tsamples 1 ;;
  do r <- birthdays srt g nms kmax tsamples c ;;
  chisq_poisson A gamma_inc_Q (pdf lambda) (fst r) (Z.of_nat kmax) (N.of_nat tsamples).
(** diehard_birthdays.c:43-44,71-74 *)
Definition diehard_birthdays (fuel rmax_bits tsamples c : nat) : outcome num :=
  birthdays_p fuel 512 (Nat.min 24 rmax_bits) tsamples c.
(** dab_birthdays1.c:50-51,68-69,86 *)
Definition dab_birthdays1 (fuel ntuple rmax_bits tsamples c : nat) : outcome num :=
  birthdays_p fuel (Nat.min (if ntuple =? 0 then 1700 else ntuple)%nat (64 * 64)) rmax_bits tsamples c.
End Stat.
