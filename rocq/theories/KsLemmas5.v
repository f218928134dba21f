(** The Kolmogorov-Smirnov test with doubles: p-values at their expected
    positions, and the integer computations. *)
From Coq Require Import ZArith Reals Lra Lia List Permutation Sorted Bool.
From Flocq Require Import Core IEEE754.BinarySingleNaN.
From Verif Require Import KsModel KsSpec KsLemmas KsLemmas2 KsLemmas3 KsLemmas4 DoubleLemmas DoubleLemmas2 DoubleLemmas3 SphereLemmas SphereLemmas2 BaseLemmas.
Import ListNotations.
Open Scope R_scope.

Definition is_zero (x : double) : Prop := exists s, x = B754_zero s.
Lemma zero_mul_r x : is_finite x = true -> forall z, is_zero z -> is_zero (dmul x z).
Proof. intros F z (s & ->). destruct x; try discriminate; eexists; reflexivity. Qed.
Lemma zero_mul_l x : is_finite x = true -> forall z, is_zero z -> is_zero (dmul z x).
Proof. intros F z (s & ->). destruct x; try discriminate; eexists; reflexivity. Qed.
Lemma zero_div x : is_finite x = true -> B2R x <> 0 -> forall z, is_zero z -> is_zero (ddiv z x).
Proof. intros F N z (s & ->). destruct x; try discriminate; [now cbn in N|]. eexists. reflexivity. Qed.
Lemma zero_fin z : is_zero z -> is_finite z = true.
Proof. intros (s & ->). reflexivity. Qed.
Lemma int_fin z : (Z.abs z <= 2 ^ 53)%Z -> is_finite (d_of_Z z) = true.
Proof. intro H. apply d_of_Z_val, H. Qed.

Section D.
Variables (dpow : double -> Z -> double) (dexp : double -> double).
Notation D := (doubles dpow dexp).

Lemma dmax_quiet count : forall pv i, (forall k, (k < length pv)%nat -> dgt (off (nth k pv dzero) (i + Z.of_nat k) count) dzero = false) ->
  dmax_loop D i count pv dzero = dzero.
Proof.
  induction pv as [|p pv IH]; intros i H; [reflexivity|]. rewrite dmax_step.
  pose proof (H 0%nat ltac:(cbn; lia)) as H0. cbn [nth] in H0. rewrite Z.add_0_r in H0. rewrite H0. apply IH.
  intros k K. specialize (H (S k) ltac:(cbn; lia)). cbn [nth] in H. rewrite <- H. do 2 f_equal. lia.
Qed.

(** p-values exactly at the positions the test expects *)
Definition ideal (n : nat) : list double := map (fun i => pos (Z.of_nat i) (Z.of_nat n)) (seq 1 n).
Lemma ideal_length n : length (ideal n) = n.
Proof. unfold ideal. now rewrite map_length, seq_length. Qed.
Lemma ideal_ok n : (Z.of_nat n <= 2147483647)%Z -> Forall pvalue_ok (ideal n).
Proof.
  intro L. apply Forall_forall. intros p I. apply in_map_iff in I. destruct I as (i & <- & I). apply in_seq in I.
  split; [apply pos_val; lia|]. destruct (pos_range (Z.of_nat i) (Z.of_nat n)) as (R & _); try lia. lra.
Qed.
Lemma seq_sorted : forall n a, StronglySorted le (seq a n).
Proof.
  induction n as [|n IH]; intro a; cbn [seq]; constructor; auto. apply Forall_forall. intros x I. apply in_seq in I. lia.
Qed.
Lemma ideal_sorted n : (Z.of_nat n <= 2147483647)%Z -> StronglySorted (fun a b : double => B2R a <= B2R b) (ideal n).
Proof.
  intro L. unfold ideal. assert (H : forall l, StronglySorted le l -> Forall (fun i => (1 <= i <= n)%nat) l ->
    StronglySorted (fun a b : double => B2R a <= B2R b) (map (fun i => pos (Z.of_nat i) (Z.of_nat n)) l)).
  { induction 1 as [|a l S IH F]; intro G; cbn [map]; constructor; inversion G; subst; auto.
    apply Forall_forall. intros x I. apply in_map_iff in I. destruct I as (i & <- & I).
    rewrite Forall_forall in F, H2. specialize (F i I). specialize (H2 i I). cbn beta in *.
    destruct (pos_val (Z.of_nat a) (Z.of_nat n)) as (_ & ->); try lia. destruct (pos_val (Z.of_nat i) (Z.of_nat n)) as (_ & ->); try lia.
    apply rnd_le. apply frac; [|apply IZR_le; lia]. pose proof (IZR_le 0 (Z.of_nat n) ltac:(lia)). lra. }
  apply H; [apply seq_sorted|]. apply Forall_forall. intros x I. apply in_seq in I. lia.
Qed.
Lemma sub_self (x : double) : is_finite x = true -> is_zero (dsub x x).
Proof.
  intro F. destruct (dsub_mod x x F F) as (F' & V).
  { unfold moderate. rewrite Rminus_diag_eq, Rabs_R0 by reflexivity. apply bpow_ge_0. }
  rewrite Rminus_diag_eq in V by reflexivity. rewrite rnd_zero in V.
  destruct (dsub x x) as [s|s| |s m e B]; try discriminate; [eexists; reflexivity|]. exfalso.
  unfold B2R in V. rewrite F2R_cond_Zopp in V. pose proof (F2R_gt_0 radix2 (Float radix2 (Z.pos m) e) eq_refl).
  destruct s; cbn [cond_Ropp] in V; lra.
Qed.
Lemma dmax_ideal srt n : sorts srt -> (Z.of_nat n <= 2147483647)%Z -> dmax_loop D 1 (Z.of_nat n) (srt (ideal n)) dzero = dzero.
Proof.
  intros H L. pose proof (ideal_ok n L) as F.
  assert (Ff : Forall (fun p => is_finite p = true) (ideal n)) by (eapply Forall_impl; [|exact F]; intros a A; apply A).
  destruct (H _ Ff) as (P & S).
  rewrite (dmax_same dpow dexp (srt (ideal n)) (ideal n)); auto; try lia.
  - apply dmax_quiet. intros k K. rewrite ideal_length in K. unfold ideal.
    rewrite (nth_indep _ dzero (pos (Z.of_nat 0) (Z.of_nat n))) by now rewrite map_length, seq_length.
    rewrite (map_nth (fun i => pos (Z.of_nat i) (Z.of_nat n))). rewrite seq_nth by exact K.
    replace (1 + Z.of_nat k)%Z with (Z.of_nat (1 + k)) by lia. unfold off.
    destruct (sub_self (pos (Z.of_nat (1 + k)) (Z.of_nat n))) as (s & ->); [apply pos_val; lia|]. destruct s; reflexivity.
  - apply Permutation_length in P. rewrite ideal_length in P. unfold double in *. lia.
  - eapply Permutation_Forall; eauto.
  - apply sorted_unique; auto using sorted_map, ideal_sorted. apply Permutation_map. now symmetry.
Qed.

(** ** q_ks at 0 *)
Hypothesis exp0 : forall z, is_zero z -> dexp z = DoubleModel.done.
Lemma q_loop_zero kappa : is_zero kappa -> forall n i, (0 <= i)%Z -> (i + 2 * Z.of_nat n <= 1000)%Z ->
  q_loop D (2 * n + 1) i (-1) kappa dzero = DoubleModel.done.
Proof.
  intros K. assert (T : forall i, (0 <= i <= 1000)%Z -> dexp (dmul (dmul kappa (d_of_Z i)) (d_of_Z i)) = DoubleModel.done).
  { intros i I. apply exp0. apply zero_mul_l; [apply int_fin; lia|]. apply zero_mul_l; [apply int_fin; lia|exact K]. }
  induction n as [|n IH]; intros i I B.
  - change (2 * 0 + 1)%nat with 1%nat. cbn [q_loop]. change (nexp D) with dexp. change (nmul D) with dmul. change (nint D) with d_of_Z.
    rewrite T by lia. apply B2SF_inj. vm_compute. reflexivity.
  - replace (2 * S n + 1)%nat with (S (S (2 * n + 1))) by lia. cbn [q_loop].
    change (nexp D) with dexp. change (nmul D) with dmul. change (nint D) with d_of_Z. change (nadd D) with dadd.
    rewrite !T by lia.
    assert (E : dadd (dadd dzero (dmul (d_of_Z (- -1)) DoubleModel.done)) (dmul (d_of_Z (- - -1)) DoubleModel.done) = dzero) by (apply B2SF_inj; vm_compute; reflexivity).
    rewrite E. apply IH; lia.
Qed.
Lemma q_ks_zero x : is_zero x -> q_ks D x = d_of_Z 2.
Proof.
  intro H. unfold q_ks. change 99%nat with (2 * 49 + 1)%nat. change (nmul D) with dmul. change (nint D) with d_of_Z. change (nneg D) with dopp.
  rewrite q_loop_zero; try lia; [apply B2SF_inj; vm_compute; reflexivity|].
  apply zero_mul_r; [|exact H]. apply zero_fin. apply zero_mul_r; [reflexivity|exact H].
Qed.
End D.

(** the factor in front of dmax is finite *)
Lemma factor_fin n a b : (2 <= n <= 2147483647)%Z -> is_finite a = true -> is_finite b = true -> 0 <= B2R a <= 1 -> 0 <= B2R b <= 1 ->
  is_finite (dadd (dadd (dsqrt (d_of_Z n)) a) (ddiv b (dsqrt (d_of_Z n)))) = true.
Proof.
  intros N Fa Fb Ra Rb. destruct (d_of_Z_val n) as (F & V & _); [lia|].
  assert (NR : 2 <= IZR n <= 2147483647) by (split; apply IZR_le; lia).
  destruct (dsqrt_val (d_of_Z n)) as (Fs & Vs); [exact F|rewrite V; lra|]. rewrite V in Vs.
  assert (S : 1 <= sqrt (IZR n) <= 65536).
  { split; [rewrite <- sqrt_1; apply sqrt_le_1_alt; lra|]. rewrite <- (sqrt_square 65536) by lra. apply sqrt_le_1_alt. lra. }
  assert (S' : 1 <= rnd (sqrt (IZR n)) <= 65536).
  { split; [rewrite <- rnd_one; apply rnd_le; lra|]. replace 65536 with (rnd 65536) by (apply (rnd_int 65536); lia). apply rnd_le. lra. }
  destruct (dadd_val (dsqrt (d_of_Z n)) a Fs Fa) as (F1 & V1); [apply moderate_le; rewrite Vs; lra|].
  destruct (ddiv_mod b (dsqrt (d_of_Z n)) Fb) as (F2 & V2); [rewrite Vs; lra| |].
  { apply moderate_le. rewrite Vs. assert (0 <= B2R b / rnd (sqrt (IZR n)) <= 1); [|lra].
    split; [apply Rmult_le_pos; [lra|]; apply Rlt_le, Rinv_0_lt_compat; lra|].
    apply Rmult_le_reg_r with (rnd (sqrt (IZR n))); [lra|]. unfold Rdiv. rewrite Rmult_assoc, Rinv_l by lra. lra. }
  assert (B2 : 0 <= B2R (ddiv b (dsqrt (d_of_Z n))) <= 1).
  { rewrite V2, Vs. assert (0 <= B2R b / rnd (sqrt (IZR n)) <= 1).
    { split; [apply Rmult_le_pos; [lra|]; apply Rlt_le, Rinv_0_lt_compat; lra|].
      apply Rmult_le_reg_r with (rnd (sqrt (IZR n))); [lra|]. unfold Rdiv. rewrite Rmult_assoc, Rinv_l by lra. lra. }
    split; [rewrite <- rnd_zero; apply rnd_le; lra|]. rewrite <- rnd_one. apply rnd_le. lra. }
  assert (B1 : 0 <= B2R (dadd (dsqrt (d_of_Z n)) a) <= 65537).
  { rewrite V1, Vs. split; [rewrite <- rnd_zero; apply rnd_le; lra|].
    replace 65537 with (rnd 65537) by (apply (rnd_int 65537); lia). apply rnd_le. lra. }
  apply dadd_val; auto. apply moderate_le. lra.
Qed.
