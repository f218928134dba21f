(** Specification for evalMostExtreme: independent p-values with a common law that
    does not distinguish p from 1-p. *)
From Coq Require Export Reals Permutation.
From Verif Require Export OpermStatSpec VtestLawSpec MostModel.
Open Scope R_scope.

(** the equally likely values: in [0,1], as likely as their complements, never 1/2 *)
Definition symmetric_law (omega : list R) : Prop :=
  omega <> [] /\ Permutation (map (fun p => 1 - p) omega) omega /\ forall p, In p omega -> 0 <= p <= 1 /\ p <> 1 / 2.
(** the probability that a value is at least, or more than, x away from 0 and 1 *)
Definition far (omega : list R) (x : R) : R := average omega (fun p => if Rle_dec x p then if Rle_dec x (1 - p) then 1 else 0 else 0).
Definition farther (omega : list R) (x : R) : R := average omega (fun p => if Rlt_dec x p then if Rlt_dec x (1 - p) then 1 else 0 else 0).
(** the probability that the combination of n values is below r *)
Definition below (all : list (list R)) (r : R) : R := average all (fun ps => if Rlt_dec (evalMostExtreme reals ps) r then 1 else 0).
