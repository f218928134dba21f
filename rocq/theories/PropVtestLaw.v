(** Theorem C124: the mean of Vtest's statistic. *)
From Coq Require Import Lia Lra.
From Verif Require Import BaseLemmas VtestArithLemmas VtestLaw.
From Verif Require Export VtestLawSpec.
Open Scope R_scope.

(** With doubles, the text below is the program's. *)
Definition to_A (dp : double -> Z -> double) (de : double -> double) (s : vstate) : vstateA (doubles dp de) :=
  @Build_vstateA (doubles dp de) (v_cells s) (v_chisq s) (v_ndof s) (v_itail s).
Definition omap {X Y} (f : X -> Y) (o : outcome X) : outcome Y := do x <- o ;; Ok (f x).
Lemma step_A dp de cutoff preset i s : v_stepA (doubles dp de) dge cutoff preset i (to_A dp de s) = omap (to_A dp de) (v_step cutoff preset i s).
Proof.
  unfold v_stepA, v_step, omap. cbn [va_cells to_A va_itail va_chisq va_ndof]. change (num (doubles dp de)) with double. destruct (aget (v_cells s) (Z.of_nat i)) as [(x, y)| | |]; cbn [bind]; try reflexivity.
  destruct (dge y cutoff); [reflexivity|]. destruct (v_itail s) as [t|] eqn:T; [|reflexivity].
  destruct (aget (v_cells s) (Z.of_nat t)) as [(xt, yt)| | |]; cbn [bind]; try reflexivity. cbn [nadd doubles].
  destruct (aset (v_cells s) (Z.of_nat t) _) as [?| | |]; cbn [bind]; reflexivity.
Qed.
Lemma loop_A dp de cutoff preset n : forall i s, v_loopA (doubles dp de) dge cutoff preset n i (to_A dp de s) = omap (to_A dp de) (ReportModel.v_loop cutoff preset n i s).
Proof.
  induction n as [|n IH]; intros i s; [reflexivity|]. cbn [v_loopA ReportModel.v_loop]. rewrite step_A. destruct (v_step cutoff preset i s); cbn [omap bind]; try reflexivity. apply IH.
Qed.
Theorem C124_program : forall dp de (cells : list (double * double)) (cutoff : double) ndof, Vtest_evalA (doubles dp de) dge cells cutoff ndof = Vtest_eval cells cutoff ndof.
Proof.
  intros dp de cells cutoff ndof. unfold Vtest_evalA, Vtest_eval.
  change (@Build_vstateA (doubles dp de) cells (nint (doubles dp de) 0) 0%N None) with (to_A dp de {| v_cells := cells; v_chisq := dzero; v_ndof := 0; v_itail := None |}).
  rewrite loop_A. change (num (doubles dp de)) with double. match goal with |- context [omap _ ?x] => set (r := x) end.
  change (ReportModel.v_loop cutoff (negb (ndof =? 0)%N) (length cells) 0 {| v_cells := cells; v_chisq := dzero; v_ndof := 0; v_itail := None |}) with r.
  destruct r as [s| | |]; cbn [omap bind]; try reflexivity. cbn [va_itail to_A va_cells]. change (num (doubles dp de)) with double.
  destruct (v_itail s) as [t|]; [|reflexivity]. destruct (aget (v_cells s) (Z.of_nat t)) as [(x, y)| | |]; cbn [bind]; try reflexivity.
  destruct (dge y cutoff); reflexivity.
Qed.

(** Over all sequences of n samples, the statistic (in exact arithmetic) has as
    its mean its number of terms, minus the probability of the cells that enter
    it.  So the mean is the number of degrees of freedom used for the p-value,
    plus the probability of the cells left out. *)
Theorem C124_mean : forall (B : Type) (omega : list B) (cell : B -> nat) k n cutoff all,
  omega <> [] -> NoDup omega -> (forall o, In o omega -> (cell o < k)%nat) -> (N.of_nat k < 2 ^ 31)%N -> (1 <= n)%nat -> 0 < cutoff ->
  lists_samples omega n all ->
  (forall l, In l all -> exists cells, Vtest_samples omega cell k n cutoff l =
     Ok (cells, chisq_samples omega cell k n cutoff l, sub32 (N.of_nat (terms omega cell k n cutoff)) 1)) /\
  average all (chisq_samples omega cell k n cutoff) = INR (terms omega cell k n cutoff) - 1 + left_out omega cell k n cutoff.
Proof.
  intros B omega cell k n cutoff all NE D C K N1 P A.
  assert (E : forall l, Vtest_samples omega cell k n cutoff l = Ok (bundled reals Rge_bool cutoff (vtable omega cell k n l) (vtable omega cell k n l),
    chisq_ofA reals (usedA reals Rge_bool cutoff (vtable omega cell k n l)), sub32 (N.of_nat (terms omega cell k n cutoff)) 1)).
  { intro l. unfold Vtest_samples. rewrite Vtest_eval_ok by (unfold vtable; rewrite map_length, seq_length; exact K). rewrite used_length by exact P. reflexivity. }
  split.
  - intros l I. unfold chisq_samples. rewrite E. eauto.
  - rewrite <- (RunsArcs.average_ext all (fun l => chisq_ofA reals (usedA reals Rge_bool cutoff (vtable omega cell k n l)))) by (intros; unfold chisq_samples; rewrite E; reflexivity).
    rewrite mean_law by assumption. ring.
Qed.
(** Three outcomes, the last two in one cell, three samples, cutoff 2: the cell
    with one expected count is left out. *)
Example C124_ex : let cell o := Nat.min o 1 in let omega := [0; 1; 2]%nat in
  terms omega cell 2 3 2 = 1%nat /\ left_out omega cell 2 3 2 = 1 / 3 /\ chisq_samples omega cell 2 3 2 [1; 2; 1]%nat = 1 / 2 /\
  lists_samples omega 3 (DnaBlock.tuples omega 3).
Proof.
  intros cell omega.
  assert (S0 : cell_share omega cell 0 = 1 / 3) by (unfold cell_share, number_in; cbn; lra).
  assert (S1 : cell_share omega cell 1 = 2 / 3) by (unfold cell_share, number_in; cbn; lra).
  assert (B0 : big omega cell 3 2 0 = false) by (unfold big, Rge_bool; rewrite S0; cbn [INR]; destruct (Rle_dec _ _); [lra|reflexivity]).
  assert (B1 : big omega cell 3 2 1 = true) by (unfold big, Rge_bool; rewrite S1; cbn [INR]; destruct (Rle_dec _ _); [reflexivity|lra]).
  assert (SM : small_share omega cell 2 3 2 = 1 / 3) by (unfold small_share; cbn [seq filter]; rewrite B0, B1; cbn [negb lsumR]; rewrite S0; lra).
  split; [|split; [|split]].
  - unfold terms. rewrite SM. cbn [seq filter]. rewrite B0, B1. cbn [INR]. destruct (Rle_dec _ _); [lra|reflexivity].
  - unfold left_out. rewrite SM. cbn [INR]. destruct (Rle_dec _ _); [lra|reflexivity].
  - unfold chisq_samples, Vtest_samples. rewrite Vtest_eval_ok by (unfold vtable; rewrite map_length, seq_length; reflexivity). rewrite chisq_used by lra.
    rewrite SM. unfold bigs. cbn [seq filter]. rewrite B0, B1. cbn [lsumR]. rewrite S1. unfold number_in, pearson. cbn. destruct (Rle_dec _ _); lra.
  - split; [apply CrapsLaw2.tuples_nodup; repeat constructor; cbn; intuition discriminate|]. intro l. apply CrapsLaw2.in_tuples.
Qed.

Print Assumptions C124_program.
Print Assumptions C124_mean.
