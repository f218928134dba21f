(** Vtest (libdieharder/Vtest.c) with the arithmetic as a parameter, to be read
    with doubles, where it is [ReportModel.Vtest_eval], or with real numbers. *)
From Verif Require Export ReportModel KsModel.
Open Scope N_scope.

Section V.
Variable A : arith.
Local Notation num := (num A).
(** >= *)
Variable ge : num -> num -> bool.

(** The cells, observed and expected (Vtest.h), and what the loop carries. *)
Record vstateA := { va_cells : list (num * num); va_chisq : num; va_ndof : N; va_itail : option nat }.

(** [(x - y)*(x - y)/y] *)
Definition delchisqA (x y : num) : num := ndiv A (nmul A (nsub A x y) (nsub A x y)) y.

(** Vtest.c:108-137, one cell.  [preset]: vtest->ndof is not zero.  x_tot and
    y_tot are only printed.  [itail == -1] is [None]; the index is an unsigned
    int, so a vector of 2^32 cells is left out. *)
Definition v_stepA (cutoff : num) (preset : bool) (i : nat) (s : vstateA) : outcome vstateA :=
  do (x, y) <- aget (va_cells s) (Z.of_nat i) ;;
  if ge y cutoff then
    Ok {| va_cells := va_cells s; va_chisq := nadd A (va_chisq s) (delchisqA x y);
          va_ndof := if preset then va_ndof s else add32 (va_ndof s) 1; va_itail := va_itail s |}
  else
    match va_itail s with
    | None => Ok {| va_cells := va_cells s; va_chisq := va_chisq s; va_ndof := va_ndof s; va_itail := Some i |}
    | Some t =>
      do (xt, yt) <- aget (va_cells s) (Z.of_nat t) ;;
      do cells <- aset (va_cells s) (Z.of_nat t) (nadd A xt x, nadd A yt y) ;;
      Ok {| va_cells := cells; va_chisq := va_chisq s; va_ndof := va_ndof s; va_itail := va_itail s |}
    end.

Fixpoint v_loopA (cutoff : num) (preset : bool) (n i : nat) (s : vstateA) : outcome vstateA :=
  match n with
  | O => Ok s
  | S m => do s <- v_stepA cutoff preset i s ;; v_loopA cutoff preset m (S i) s
  end.

(** Vtest.c:56-219: the final cells, chi-square and degrees of freedom; the
    p-value is gsl_sf_gamma_inc_Q(ndof/2, chisq/2). *)
Definition Vtest_evalA (cells : list (num * num)) (cutoff : num) (ndof : N)
  : outcome (list (num * num) * num * N) :=
  let preset := negb (ndof =? 0) in
  do s <- v_loopA cutoff preset (length cells) 0
            {| va_cells := cells; va_chisq := nint A 0; va_ndof := 0; va_itail := None |} ;;
  do s <- match va_itail s with
          | None => Ok s
          | Some t =>
            do (x, y) <- aget (va_cells s) (Z.of_nat t) ;;
            if ge y cutoff then
              Ok {| va_cells := va_cells s; va_chisq := nadd A (va_chisq s) (delchisqA x y);
                    va_ndof := if preset then va_ndof s else add32 (va_ndof s) 1; va_itail := va_itail s |}
            else Ok s
          end ;;
  Ok (va_cells s, va_chisq s, if preset then ndof else sub32 (va_ndof s) 1).
End V.
