(** The cells Vtest works with, for any arithmetic, and independent samples. *)
From Coq Require Export Reals.
From Verif Require Export VtestArith OpermStatSpec.
Open Scope R_scope.

Section Cells.
Variable A : arith.
Local Notation num := (num A).
Variable ge : num -> num -> bool.
Definition dsumA (l : list num) : num := match l with [] => nint A 0 | a :: r => fold_left (nadd A) r a end.
Definition largeA (cutoff : num) (c : num * num) : bool := ge (snd c) cutoff.
Definition bundleA (small : list (num * num)) : num * num := (dsumA (map fst small), dsumA (map snd small)).
(** The cells that enter chi-square: the large ones, in order, then the bundle
    of the others if there are any and it is large enough. *)
Definition usedA (cutoff : num) (cells : list (num * num)) : list (num * num) :=
  let small := filter (fun c => negb (largeA cutoff c)) cells in
  filter (largeA cutoff) cells ++
  (if (negb (length small =? 0)%nat && largeA cutoff (bundleA small))%bool then [bundleA small] else []).
Definition chisq_ofA (cells : list (num * num)) : num :=
  fold_left (fun s c => nadd A s (delchisqA A (fst c) (snd c))) cells (nint A 0).
End Cells.

Definition Rge_bool (x y : R) : bool := if Rle_dec y x then true else false.

(** n samples from the equally likely outcomes [omega]; outcome o counts in cell
    number [cell o] of k. *)
Section Samples.
Context {B : Type}.
Variable omega : list B.
Variable cell : B -> nat.
Variable k n : nat.
(** every sequence of n samples, once *)
Definition lists_samples (all : list (list B)) : Prop :=
  NoDup all /\ forall l, In l all <-> length l = n /\ forall o, In o l -> In o omega.
Definition number_in (i : nat) (l : list B) : R := INR (length (filter (fun o => Nat.eqb (cell o) i) l)).
(** the probability of a cell *)
Definition cell_share (i : nat) : R := number_in i omega / INR (length omega).
(** the vectors given to Vtest: counts, and exact expected counts *)
Definition vtable (l : list B) : list (R * R) := map (fun i => (number_in i l, INR n * cell_share i)) (seq 0 k).
Definition Vtest_samples (cutoff : R) (l : list B) : outcome (list (R * R) * R * N) := Vtest_evalA reals Rge_bool (vtable l) cutoff 0.
Definition chisq_samples (cutoff : R) (l : list B) : R := match Vtest_samples cutoff l with Ok (_, c, _) => c | _ => 0 end.

(** the cells with enough expected counts, and the probability of the others *)
Definition big (cutoff : R) (i : nat) : bool := Rge_bool (INR n * cell_share i) cutoff.
Definition small_share (cutoff : R) : R := lsumR (filter (fun i => negb (big cutoff i)) (seq 0 k)) cell_share.
(** the number of terms of the statistic, and the probability of what it leaves out *)
Definition terms (cutoff : R) : nat :=
  (length (filter (big cutoff) (seq 0 k)) + if Rle_dec cutoff (INR n * small_share cutoff) then 1 else 0)%nat.
Definition left_out (cutoff : R) : R := if Rle_dec cutoff (INR n * small_share cutoff) then 0 else small_share cutoff.
End Samples.
