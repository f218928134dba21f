(** Model of the expected values of diehard_craps, in doubles or in exact
    arithmetic. *)
From Verif Require Export CrapsModel XtestModel.
Open Scope Z_scope.

Section Stat.
Variable A : arith.
Local Notation num := (num A).
Local Notation lit := (fun z => nlit A z 1).

(** diehard_craps.c:66 *)
Definition craps_p : num := ndiv A (lit 244) (lit 495).
(** diehard_craps.c:67; tsamples is converted to double *)
Definition craps_wins_y (tsamples : Z) : num := nmul A (nint A tsamples) craps_p.
(** diehard_craps.c:68 *)
Definition craps_wins_sigma (tsamples : Z) : num := nsqrt A (nmul A (craps_wins_y tsamples) (nsub A (lit 1) craps_p)).
(** diehard_craps.c:79-80 *)
Definition craps_y (i : Z) : num :=
  ndiv A (nadd A (nadd A (nmul A (lit 27) (npow A (ndiv A (lit 27) (lit 36)) (i - 1)))
                         (nmul A (nint A 40) (npow A (ndiv A (lit 13) (lit 18)) (i - 1))))
                 (nmul A (lit 55) (npow A (ndiv A (lit 25) (lit 36)) (i - 1)))) (lit 648).
(** diehard_craps.c:78-82: the loop; the table so far and the sum *)
Fixpoint craps_fill (n : nat) (i : Z) (y : list num) (sum : num) : list num * num :=
  match n with
  | O => (y, sum)
  | S n => let v := craps_y i in craps_fill n (i + 1) (y ++ [v]) (nadd A sum v)
  end.
(** diehard_craps.c:76-89 *)
Definition craps_expected (tsamples : Z) : list num :=
  let sum := ndiv A (lit 1) (lit 3) in
  let (y, sum) := craps_fill 19 1 [sum] sum in
  map (fun v => nmul A v (nint A tsamples)) (y ++ [nsub A (lit 1) sum]).
End Stat.
