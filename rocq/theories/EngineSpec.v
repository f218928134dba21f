(** What the engine is supposed to do, stated without its loops. *)
From Coq Require Import Permutation.
From Verif Require Export EngineModel.
Open Scope N_scope.

(** Number of p-values after the first std_test call and [k] further ones. *)
Definition samples_after (cfg : config) (k : nat) : N :=
  N.min (wanted cfg + N.of_nat k * c_xstep cfg) (c_xoff cfg).

(** Every statistic holds exactly the p-values of executions [from],
    [from+1], ..., [from+n-1] of the test, each once, and says so. *)
Definition holds_exactly (res : nat -> nat -> double) (from : nat) (n : N) (ts : list stat) : Prop :=
  forall j t, nth_error ts j = Some t ->
    s_ps t = n /\
    Permutation (firstn (N.to_nat n) (s_pv t))
                (map (fun c => res c j) (seq from (N.to_nat n))).

(** Some statistic has a positive Kolmogorov-Smirnov p-value. *)
Definition some_positive (ts : list stat) : Prop :=
  exists t, In t ts /\ dgt (s_ks t) dzero = true.

(** The documented reasons to stop (run_test.c:100-133, and the manual page
    on -Y). *)
Definition stops (cfg : config) (ts : list stat) : Prop :=
  let failed := exists t, In t ts /\ dlt (tail (s_ks t)) (c_xfail cfg) = true in
  let passed := forall t, In t ts -> dge (tail (s_ks t)) (c_xweak cfg) = true in
  let full := forall t, In t ts -> c_xoff cfg <= s_ps t in
  (c_strategy cfg = 1 /\ (failed \/ passed \/ full)) \/
  (c_strategy cfg = 2 /\ (failed \/ full)) \/
  (c_strategy cfg <> 1 /\ c_strategy cfg <> 2).

(** The ranges in which no counter wraps. *)
Definition sane (cfg : config) : Prop :=
  (0 < c_nkps cfg)%nat /\ wanted cfg < 2 ^ 31 /\ 
  0 < c_xstep cfg < 2 ^ 31 /\ c_xoff cfg < 2 ^ 31.
