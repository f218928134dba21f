(** Model of libdieharder/marsaglia_tsang_gorilla.c: what bears the name of the
    gorilla test is a sum of every lag-th number, with the lag given by -x. *)
From Verif Require Export LaggedModel.
Open Scope Z_scope.

(** marsaglia_tsang_gorilla.c:35-39: lag, an unsigned int, from the double
    x_user.  The conversion of a value whose integer part is no unsigned int is
    undefined. *)
Definition gorilla_lag (x_user : double) : outcome N :=
  if deq x_user dzero then Ok 2%N else
  match dtrunc x_user with
  | Some z => if (0 <=? z) && (z <? 2 ^ 32) then Ok (Z.to_N z) else UB "conversion to unsigned int"
  | None => UB "conversion to unsigned int"
  end.

Section Gorilla.
Variable A : arith.
(** gsl_cdf_gaussian_P, not modelled *)
Variable gaussian_P : KsModel.num A -> KsModel.num A -> KsModel.num A.

(** marsaglia_tsang_gorilla.c:14-67: the p-value and the number of draws made;
    per sample lag-1 numbers are thrown away, in unsigned arithmetic. *)
Definition marsaglia_tsang_gorilla (u : nat -> KsModel.num A) (x_user : double) (tsamples c : nat) : outcome (KsModel.num A * nat) :=
  do lag <- gorilla_lag x_user ;;
  let away := N.to_nat (sub32 lag 1) in
  Ok (Xtest_eval A gaussian_P (lagged_xtest A u away tsamples c), snd (lagged (nadd A) u away tsamples (nint A 0) c)).
End Gorilla.
