(** Model of what is printed about a p-value: the assessment
    (dieharder/output.c output_table_line) and the histogram (dieharder/output.c
    output_histogram, the same code as libdieharder/histogram.c), and of the
    chi-square evaluation with tail bundling (libdieharder/Vtest.c). *)
From Verif Require Export Base DoubleModel.
Open Scope N_scope.

(** ** Assessment *)
Inductive assessment := FAILED | WEAK | PASSED.

(** output.c:498-516 *)
Definition assess (xfail xweak p : double) : assessment :=
  if dlt p xfail || dgt p (dsub done xfail) then FAILED
  else if dlt p xweak || dgt p (dsub done xweak) then WEAK
  else PASSED.

(** ** Histogram *)

(** [(int) x]: undefined when the integer part is not an int (C11 6.3.1.4). *)
Definition to_int (x : double) : outcome Z :=
  match dtrunc x with
  | None => UB "conversion to int"
  | Some z => if ((- 2 ^ 31 <=? z) && (z <? 2 ^ 31))%Z then Ok z else UB "conversion to int"
  end.

(** output.c:577 *)
Definition binscale (min max : double) (nbins : Z) : double :=
  ddiv (dsub max min) (d_of_Z nbins).

(** output.c:599-602 *)
Definition bin_of (scale : double) (nbins : Z) (p : double) : outcome Z :=
  do h <- to_int (ddiv p scale) ;;
  let h := if (h <? 0)%Z then 0%Z else h in
  Ok (if (nbins <=? h)%Z then (nbins - 1)%Z else h).

(** output.c:598-606: the bins and the largest of them. *)
Fixpoint fill (scale : double) (nbins : Z) (input : list double) (bins : list N) (binmax : N)
  : outcome (list N * N) :=
  match input with
  | [] => Ok (bins, binmax)
  | p :: rest =>
    do h <- bin_of scale nbins p ;;
    do b <- aget bins h ;;
    let b := add32 b 1 in
    do bins <- aset bins h b ;;
    fill scale nbins rest bins (if binmax <? b then b else binmax)
  end.

(** output.c:616-621: [while(binmax >= 20*vscale) vscale++;] *)
Fixpoint rescale (fuel : nat) (binmax vscale : N) : outcome N :=
  match fuel with
  | O => OutOfFuel
  | S f => if mul32 20 vscale <=? binmax then rescale f binmax (add32 vscale 1) else Ok vscale
  end.

(** output.c:616: ceil(psamples/100.0), with the global psamples (the -p
    argument, 0 when absent).  The division and ceil are exact enough on 32-bit
    integers for this to be the integer ceiling; taken as such. *)
Definition first_scale (psamples : N) : N := (psamples + 99) / 100.

(** output.c:627-641: row i (from 20 down to 1), column j has stars or not. *)
Definition stars (bins : list N) (vscale : N) (i : nat) : list bool :=
  map (fun b => mul32 (N.of_nat i) vscale <=? b) bins.

(** output.c:560-651: scale and picture (row 20 first). *)
Definition output_histogram (fuel : nat) (psamples : N) (input : list double) (nbins : Z)
  : outcome (list N * N * list (list bool)) :=
  let scale := binscale dzero done nbins in
  do (bins, binmax) <- fill scale nbins input (repeat 0 (Z.to_nat nbins)) 0 ;;
  do vscale <- rescale fuel binmax (first_scale psamples) ;;
  Ok (bins, vscale, map (stars bins vscale) (rev (seq 1 20))).

(** ** Vtest *)

(** The cells, observed and expected (Vtest.h), and what the loop carries. *)
Record vstate := { v_cells : list (double * double); v_chisq : double; v_ndof : N; v_itail : option nat }.

(** [(x - y)*(x - y)/y] *)
Definition delchisq (x y : double) : double := ddiv (dmul (dsub x y) (dsub x y)) y.

(** Vtest.c:108-137, one cell.  [preset]: vtest->ndof is not zero.  x_tot and
    y_tot are only printed.  [itail == -1] is [None]; the index is an unsigned
    int, so a vector of 2^32 cells is left out. *)
Definition v_step (cutoff : double) (preset : bool) (i : nat) (s : vstate) : outcome vstate :=
  do (x, y) <- aget (v_cells s) (Z.of_nat i) ;;
  if dge y cutoff then
    Ok {| v_cells := v_cells s; v_chisq := dadd (v_chisq s) (delchisq x y);
          v_ndof := if preset then v_ndof s else add32 (v_ndof s) 1; v_itail := v_itail s |}
  else
    match v_itail s with
    | None => Ok {| v_cells := v_cells s; v_chisq := v_chisq s; v_ndof := v_ndof s; v_itail := Some i |}
    | Some t =>
      do (xt, yt) <- aget (v_cells s) (Z.of_nat t) ;;
      do cells <- aset (v_cells s) (Z.of_nat t) (dadd xt x, dadd yt y) ;;
      Ok {| v_cells := cells; v_chisq := v_chisq s; v_ndof := v_ndof s; v_itail := v_itail s |}
    end.

Fixpoint v_loop (cutoff : double) (preset : bool) (n i : nat) (s : vstate) : outcome vstate :=
  match n with
  | O => Ok s
  | S m => do s <- v_step cutoff preset i s ;; v_loop cutoff preset m (S i) s
  end.

(** Vtest.c:56-219: the final cells, chi-square and degrees of freedom; the
    p-value is gsl_sf_gamma_inc_Q(ndof/2, chisq/2). *)
Definition Vtest_eval (cells : list (double * double)) (cutoff : double) (ndof : N)
  : outcome (list (double * double) * double * N) :=
  let preset := negb (ndof =? 0) in
  do s <- v_loop cutoff preset (length cells) 0
            {| v_cells := cells; v_chisq := dzero; v_ndof := 0; v_itail := None |} ;;
  do s <- match v_itail s with
          | None => Ok s
          | Some t =>
            do (x, y) <- aget (v_cells s) (Z.of_nat t) ;;
            if dge y cutoff then
              Ok {| v_cells := v_cells s; v_chisq := dadd (v_chisq s) (delchisq x y);
                    v_ndof := if preset then v_ndof s else add32 (v_ndof s) 1; v_itail := v_itail s |}
            else Ok s
          end ;;
  Ok (v_cells s, v_chisq s, if preset then ndof else sub32 (v_ndof s) 1).
