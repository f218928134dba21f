(** The law of the number of missing words when all sequences of generator
    results are equally likely. *)
From Verif Require Export RankLawSpec WordSpec XtestModel OpermStatSpec.
Open Scope R_scope.

(** [matrices w k] (RankLawSpec) lists every sequence of k results of w bits,
    once; [average] (OpermStatSpec) is the mean over such a list. *)
Definition drawn (l : list N) (i : nat) : N := nth i l 0%N.
Definition holes {B} (o : outcome (N * B)) : R := match o with Ok (m, _) => IZR (Z.of_N m) | _ => 0 end.
Definition opso_holes (n : nat) (l : list N) : R := holes (opso_missing (drawn l) n 0).
Definition oqso_holes (n : nat) (l : list N) : R := holes (oqso_missing (drawn l) n 0).
(** the two counts of dab_opso2 *)
Definition single_holes (n : nat) (l : list N) : R :=
  match opso2_missing (drawn l) n 0 with Ok (m, _, _) => IZR (Z.of_N m) | _ => 0 end.
Definition pair_holes (n : nat) (l : list N) : R :=
  match opso2_missing (drawn l) n 0 with Ok (_, m, _) => IZR (Z.of_N m) | _ => 0 end.

(** Mean and variance of the number of the M equally likely words that n
    independent words miss. *)
Definition missing_mean (M : R) (n : nat) : R := M * (1 - 1 / M) ^ n.
Definition missing_variance (M : R) (n : nat) : R :=
  M * (1 - 1 / M) ^ n + M * (M - 1) * (1 - 2 / M) ^ n - missing_mean M n ^ 2.
