(** Specification of the speed measurement. *)
From Coq Require Export Reals ZArith List.
Open Scope R_scope.

(** The moment of a reading of the clock, in seconds. *)
Definition moment (r : Z * Z) : R := IZR (fst r) + IZR (snd r) / 1000000.

(** The time spent in the passes. *)
Fixpoint elapsed (passes : list ((Z * Z) * (Z * Z))) : R :=
  match passes with
  | nil => 0
  | p :: rest => (moment (snd p) - moment (fst p)) + elapsed rest
  end.
