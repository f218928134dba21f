(** Theorem C143: the statistic of rgb_lagged_sums under fair bits. *)
From Coq Require Import Lia Lra.
From Verif Require Export LaggedSpec LaggedModel.
From Verif Require Import BaseLemmas OpermReal RunsArcs WordCode KsReals MissingLaw DctLaw CountStat PropRgb.
Open Scope R_scope.

Lemma fold_add l : forall x : R, fold_left Rplus l x = x + lsumR l (fun y => y).
Proof. induction l as [|a l IH]; intro x; cbn [fold_left lsumR]; [ring|]. rewrite IH. ring. Qed.
Lemma lagged_real (u : nat -> R) lag n : fst (lagged Rplus u lag n 0 0) = rsum n (fun t => u (t * (lag + 1) + lag)%nat).
Proof.
  rewrite C72_lagged. cbn [fst]. rewrite fold_add, VtestLaw.lsumR_map, lsumR_seq, Rplus_0_l. apply rsum_ext. intros t _. f_equal. lia.
Qed.
(** the test compares the sum with half the number of samples, and a standard
    deviation of the root of a twelfth of it; dieharder's own generators divide by
    2^32-1, those of the GSL by 2^w *)
Lemma lagged_p P d l lag n :
  rgb_lagged_sums reals P (fun i => word l i / d) lag n 0 = P (INR n / 2 - lagged_sum d lag n l) (sqrt (INR n / 12)).
Proof.
  unfold rgb_lagged_sums, Xtest_eval, lagged_xtest. cbn [xt_x xt_y xt_sigma].
  change (nadd reals) with Rplus. change (nint reals 0) with 0. rewrite (lagged_real (fun i => word l i / d)). fold (lagged_sum d lag n l).
  cbn [nsub nmul nsqrt ndiv nint nlit reals]. rewrite <- INR_IZR_INZ. f_equal. as_reals. lra.
Qed.
Lemma uniform32_real x : uniform32 reals x = IZR (Z.of_N x) / (2 ^ 32 - 1).
Proof. unfold uniform32. cbn [ndiv nint reals]. f_equal. rewrite minus_IZR. f_equal. now rewrite (pow_IZR 2 32). Qed.
Lemma uniform_gsl_real w x : uniform_gsl reals w x = IZR (Z.of_N x) / 2 ^ N.to_nat w.
Proof. unfold uniform_gsl. cbn [ndiv nint reals]. f_equal. rewrite (pow_IZR 2), N_nat_Z. reflexivity. Qed.
Theorem C143_pvalue : forall P w l lag n,
  rgb_lagged_sums reals P (fun i => uniform32 reals (drawn l i)) lag n 0 = P (INR n / 2 - lagged_sum (2 ^ 32 - 1) lag n l) (sqrt (INR n / 12)) /\
  rgb_lagged_sums reals P (fun i => uniform_gsl reals w (drawn l i)) lag n 0 = P (INR n / 2 - lagged_sum (2 ^ N.to_nat w) lag n l) (sqrt (INR n / 12)).
Proof.
  intros P w l lag n.
  split; rewrite <- lagged_p; unfold rgb_lagged_sums, lagged_xtest; rewrite !C72_lagged; cbn [fst]; do 3 f_equal; apply map_ext; intro t; [apply uniform32_real|apply uniform_gsl_real].
Qed.

Definition lag_coef (d : R) (lag j : nat) : R := if (j mod (lag + 1) =? lag)%nat then / d else 0.
Lemma lag_row d lag i j : (j < lag + 1)%nat -> lag_coef d lag (i * (lag + 1) + j) = if (j =? lag)%nat then / d else 0.
Proof. intro J. unfold lag_coef. rewrite Nat.add_comm, Nat.mod_add by lia. now rewrite Nat.mod_small by exact J. Qed.
Lemma lag_rsum d lag n (f : nat -> R) : rsum (n * (lag + 1)) (fun j => lag_coef d lag j * f j) = rsum n (fun t => f (t * (lag + 1) + lag)%nat / d).
Proof.
  rewrite rsum_rows. apply rsum_ext. intros i _. rewrite (rsum_single _ _ lag) by (lia || (intros j J NE; rewrite lag_row by exact J; destruct (Nat.eqb_spec j lag); [contradiction|ring])).
  rewrite lag_row by lia. rewrite Nat.eqb_refl. unfold Rdiv. ring.
Qed.
Lemma lag_form d lag n l : form (n * (lag + 1)) (lag_coef d lag) l = lagged_sum d lag n l.
Proof. unfold form. now rewrite lag_rsum. Qed.
Lemma lag_total d lag n : rsum (n * (lag + 1)) (lag_coef d lag) = INR n / d.
Proof.
  rewrite (rsum_ext _ _ (fun j => lag_coef d lag j * 1)) by (intros; ring). rewrite (lag_rsum d lag n (fun _ => 1)), rsum_const. unfold Rdiv. ring.
Qed.
Lemma lag_squares d lag n : rsum (n * (lag + 1)) (fun j => lag_coef d lag j * lag_coef d lag j) = INR n / d ^ 2.
Proof.
  rewrite (lag_rsum d lag n (lag_coef d lag)). rewrite (rsum_ext _ _ (fun _ => / d / d)).
  - rewrite rsum_const. cbn [pow]. rewrite Rmult_1_r. unfold Rdiv. rewrite Rinv_mult. ring.
  - intros t _. rewrite lag_row by lia. now rewrite Nat.eqb_refl.
Qed.
Lemma qw_pow w : qw w = 2 ^ N.to_nat w.
Proof. unfold qw. rewrite pow_IZR. f_equal. f_equal. now rewrite N_nat_Z. Qed.
Lemma mean_form d w n : mu w * (INR n / d) = lagged_mean d w n.
Proof. unfold mu, lagged_mean. rewrite qw_pow. unfold Rdiv. ring. Qed.
(** the mean and the variance of the sum, for every lag *)
Theorem C143_moments : forall d w lag n,
  average (matrices w (n * (lag + 1))) (fun l => lagged_sum d lag n l) = lagged_mean d w n /\
  average (matrices w (n * (lag + 1))) (fun l => (lagged_sum d lag n l - lagged_mean d w n) ^ 2) = lagged_variance d w n.
Proof.
  intros d w lag n. split.
  - pose proof (form_mean w (n * (lag + 1)) (lag_coef d lag)) as F. rewrite lag_total, mean_form in F.
    rewrite (average_ext _ _ (fun l => (form (n * (lag + 1)) (lag_coef d lag) l - lagged_mean d w n) + lagged_mean d w n)) by (intros; rewrite lag_form; ring).
    rewrite average_plus, F, WindowLaw.average_const; [ring|]. intro E. pose proof (matrices_len w (n * (lag + 1))) as L. rewrite E in L. cbn in L. symmetry in L. revert L. apply pow_nonzero. apply IZR_neq. apply Z.pow_nonzero; lia.
  - pose proof (form_cov w (n * (lag + 1)) (lag_coef d lag) (lag_coef d lag)) as F. rewrite lag_total, mean_form, lag_squares in F.
    rewrite (average_ext _ _ (fun l => (form (n * (lag + 1)) (lag_coef d lag) l - lagged_mean d w n) * (form (n * (lag + 1)) (lag_coef d lag) l - lagged_mean d w n))) by (intros; rewrite lag_form; ring).
    rewrite F. unfold lagged_variance. rewrite qw_pow. replace 4 with (2 * 2) by ring. rewrite Rpow_mult_distr. unfold Rdiv. ring.
Qed.

Lemma pow_gt1 k : (1 <= k)%nat -> 1 < 2 ^ k.
Proof. intro K. apply (Rlt_pow_R1 2 k); [lra|lia]. Qed.
(** With 32-bit words the generators of dieharder make the mean exact, and the
    variance is too large by the factor 1 + 2/(2^32-1). *)
Theorem C143_own : forall lag n,
  average (matrices 32 (n * (lag + 1))) (fun l => lagged_sum (2 ^ 32 - 1) lag n l) = INR n / 2 /\
  average (matrices 32 (n * (lag + 1))) (fun l => (lagged_sum (2 ^ 32 - 1) lag n l - INR n / 2) ^ 2) = INR n / 12 * (1 + 2 / (2 ^ 32 - 1)).
Proof.
  intros lag n. destruct (C143_moments (2 ^ 32 - 1) 32 lag n) as (M & V).
  assert (E : lagged_mean (2 ^ 32 - 1) 32 n = INR n / 2) by (unfold lagged_mean; change (N.to_nat 32) with 32%nat; pose proof (pow_gt1 32 ltac:(lia)); field; lra).
  rewrite E in M, V. split; [exact M|]. rewrite V. unfold lagged_variance. change (N.to_nat 32) with 32%nat. replace 4 with (2 * 2) by ring. rewrite Rpow_mult_distr.
  pose proof (pow_gt1 32 ltac:(lia)). set (q := 2 ^ 32) in *. clearbody q. field. lra.
Qed.
(** The GSL's generators with w bits never return one: the mean is too small by
    n/2^(w+1), which is sqrt(3n)/2^w of the standard deviations the test assumes,
    and the variance by the factor 1 - 1/4^w. *)
Theorem C143_gsl : forall w lag n,
  average (matrices w (n * (lag + 1))) (fun l => lagged_sum (2 ^ N.to_nat w) lag n l) = INR n / 2 - sqrt (3 * INR n) / 2 ^ N.to_nat w * sqrt (INR n / 12) /\
  average (matrices w (n * (lag + 1))) (fun l => (lagged_sum (2 ^ N.to_nat w) lag n l - lagged_mean (2 ^ N.to_nat w) w n) ^ 2) = INR n / 12 * (1 - / 4 ^ N.to_nat w).
Proof.
  intros w lag n. destruct (C143_moments (2 ^ N.to_nat w) w lag n) as (M & V). pose proof (pos_INR n).
  assert (Q : 0 < 2 ^ N.to_nat w) by (apply pow_lt; lra). rewrite M, V. unfold lagged_mean, lagged_variance. replace 4 with (2 * 2) by ring. rewrite Rpow_mult_distr. set (q := 2 ^ N.to_nat w) in *. clearbody q.
  split; [|field; lra].
  assert (S : sqrt (3 * INR n) * sqrt (INR n / 12) = INR n / 2).
  { rewrite <- sqrt_mult by lra. replace (3 * INR n * (INR n / 12)) with (INR n / 2 * (INR n / 2)) by field. apply sqrt_square. lra. }
  replace (sqrt (3 * INR n) / q * sqrt (INR n / 12)) with (sqrt (3 * INR n) * sqrt (INR n / 12) / q) by (field; lra). rewrite S. field. lra.
Qed.
(** A file of w-bit numbers with w < 32 is divided by 2^32-1 all the same: the sum
    is below n/2 whatever the numbers are, and with at most 30 bits it is below
    by sqrt(3n)/2 standard deviations (866 for the default of 10^6 samples). *)
Theorem C143_narrow_refuted : forall w lag n l, (w < 32)%N -> (1 <= n)%nat -> In l (matrices w (n * (lag + 1))) ->
  lagged_sum (2 ^ 32 - 1) lag n l < INR n / 2 /\
  ((w <= 30)%N -> sqrt (3 * INR n) / 2 * sqrt (INR n / 12) <= INR n / 2 - lagged_sum (2 ^ 32 - 1) lag n l).
Proof.
  intros w lag n l W N1 L. apply in_matrices in L. destruct L as (LL & LB). assert (NP : 0 < INR n) by (apply lt_0_INR; lia).
  assert (B : forall m, (w <= N.of_nat m)%N -> lagged_sum (2 ^ 32 - 1) lag n l <= INR n * ((2 ^ m - 1) / (2 ^ 32 - 1))).
  { intros m M. unfold lagged_sum. rewrite <- rsum_const. apply rsum_le. intros t T. unfold Rdiv. apply Rmult_le_compat_r; [left; apply Rinv_0_lt_compat; lra|].
    unfold word. rewrite pow_IZR, <- minus_IZR. apply IZR_le. assert (I : In (nth (t * (lag + 1) + lag) l 0%N) l) by (apply nth_In; rewrite LL; nia).
    specialize (LB _ I). assert (2 ^ w <= 2 ^ N.of_nat m)%N by (apply N.pow_le_mono_r; lia). assert (E : Z.of_N (2 ^ N.of_nat m) = (2 ^ Z.of_nat m)%Z) by (rewrite N2Z.inj_pow, nat_N_Z; reflexivity). lia. }
  assert (S : sqrt (3 * INR n) * sqrt (INR n / 12) = INR n / 2).
  { rewrite <- sqrt_mult by lra. replace (3 * INR n * (INR n / 12)) with (INR n / 2 * (INR n / 2)) by field. apply sqrt_square. lra. }
  split.
  - specialize (B 31%nat ltac:(lia)). eapply Rle_lt_trans; [exact B|]. unfold Rdiv at 2. apply Rmult_lt_compat_l; [exact NP|]. lra.
  - intro W30. specialize (B 30%nat ltac:(lia)). replace (sqrt (3 * INR n) / 2 * sqrt (INR n / 12)) with (INR n / 4) by (rewrite <- (Rmult_1_r (INR n / 4)); lra).
    assert (INR n * ((2 ^ 30 - 1) / (2 ^ 32 - 1)) <= INR n * / 4) by (apply Rmult_le_compat_l; lra). lra.
Qed.
(** two samples with lag 1 from four numbers of 32 bits *)
Example C143_ex : forall P, lagged_sum (2 ^ 32 - 1) 1 2 [1; 2 ^ 32 - 1; 5; 0]%N = 1 /\
  rgb_lagged_sums reals P (fun i => uniform32 reals (drawn [1; 2 ^ 32 - 1; 5; 0]%N i)) 1 2 0 = P (INR 2 / 2 - 1) (sqrt (INR 2 / 12)) /\
  In [1; 2; 3; 0]%N (matrices 2 (2 * (1 + 1))) /\ lagged_variance (2 ^ 32 - 1) 2 2 = 2 * (15 / 12) / (2 ^ 32 - 1) ^ 2.
Proof.
  intro P. assert (E : lagged_sum (2 ^ 32 - 1) 1 2 [1; 2 ^ 32 - 1; 5; 0]%N = 1).
  { unfold lagged_sum. cbn [rsum Nat.mul Nat.add word nth]. unfold word. cbn [nth]. change (Z.of_N (2 ^ 32 - 1)) with 4294967295%Z. change (Z.of_N 0) with 0%Z. lra. }
  split; [exact E|]. split; [rewrite (proj1 (C143_pvalue P 32 _ 1 2)), E; reflexivity|]. split.
  - apply in_matrices. split; [reflexivity|]. intros x [<-|[<-|[<-|[<-|[]]]]]; reflexivity.
  - unfold lagged_variance. change (N.to_nat 2) with 2%nat. replace ((4 ^ 2 - 1) / 12) with (15 / 12) by lra. reflexivity.
Qed.

Print Assumptions C143_pvalue.
Print Assumptions C143_moments.
Print Assumptions C143_own.
Print Assumptions C143_gsl.
Print Assumptions C143_narrow_refuted.
