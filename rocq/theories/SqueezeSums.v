(** Bounds for the sums of (1/i)^m. *)
From Coq Require Import ZArith Reals Lra Lia List Bool.
From Verif Require Import SqueezeSpec SqueezeLaw KsSpec KsReals.
Import ListNotations.
Open Scope R_scope.

(** ** The first terms, one by one *)
Fixpoint dsum (n : nat) (i m : Z) : Z := match n with O => 0 | S n => one / i ^ m + dsum n (i + 1) m end.
Lemma dsum_ok m : forall n i, (2 <= i)%nat ->
  fx (dsum n (Z.of_nat i) (Z.of_nat m)) <= rsum n (fun t => (/ INR (i + t)) ^ m) <= fx (dsum n (Z.of_nat i) (Z.of_nat m) + Z.of_nat n).
Proof.
  pose proof one_pos as OP. induction n as [|n IH]; intros i I; [unfold fx; cbn; lra|]. rewrite rsum_first. cbn [dsum].
  assert (Q : fx (one / Z.of_nat i ^ Z.of_nat m) <= (/ INR (i + 0)) ^ m <= fx (one / Z.of_nat i ^ Z.of_nat m + 1)).
  { rewrite Nat.add_0_r, pow_inv, INR_IZR_INZ, pow_IZR. set (d := (Z.of_nat i ^ Z.of_nat m)%Z). assert (D : (0 < d)%Z) by (apply Z.pow_pos_nonneg; lia). assert (DR : 0 < IZR d) by (now apply IZR_lt).
    unfold fx. split.
    - apply Rmult_le_reg_r with (IZR d * IZR one); [nra|]. replace (IZR (one / d) / IZR one * (IZR d * IZR one)) with (IZR (d * (one / d))) by (rewrite mult_IZR; field; lra).
      replace (/ IZR d * (IZR d * IZR one)) with (IZR one) by (field; lra). apply IZR_le, Z.mul_div_le, D.
    - apply Rmult_le_reg_r with (IZR d * IZR one); [nra|]. replace (IZR (one / d + 1) / IZR one * (IZR d * IZR one)) with (IZR (d * (one / d + 1))) by (rewrite mult_IZR; field; lra).
      replace (/ IZR d * (IZR d * IZR one)) with (IZR one) by (field; lra). apply IZR_le. pose proof (Z.mul_succ_div_gt one d D). unfold Z.succ in *. lia. }
  specialize (IH (S i) ltac:(lia)). replace (Z.of_nat i + 1)%Z with (Z.of_nat (S i)) by lia.
  rewrite (rsum_ext n (fun t => (/ INR (i + S t)) ^ m) (fun t => (/ INR (S i + t)) ^ m)) by (intros t _; now rewrite Nat.add_succ_comm).
  unfold fx in *. replace (Z.of_nat (S n)) with (Z.of_nat n + 1)%Z by lia. rewrite !plus_IZR in *. unfold Rdiv in *. lra.
Qed.
Lemma direct m n : fx (dsum n 2 (Z.of_nat m)) <= psum m n <= fx (dsum n 2 (Z.of_nat m) + Z.of_nat n).
Proof.
  unfold psum. rewrite (rsum_ext n _ (fun t => (/ INR (2 + t)) ^ m)) by (intros t _; now rewrite Nat.add_comm). apply (dsum_ok m n 2). lia.
Qed.

(** ** The others *)
Definition tail (m n k : nat) : R := rsum k (fun t => (/ INR (n + t + 2)) ^ m).
Lemma psum_tail m n : forall k, psum m (n + k) = psum m n + tail m n k.
Proof.
  induction k as [|k IH]; unfold tail; cbn [rsum]; [rewrite Nat.add_0_r; ring|]. rewrite Nat.add_succ_r. unfold psum at 1. cbn [rsum]. fold (psum m (n + k)). rewrite IH. unfold tail. ring.
Qed.
Lemma tail_step m n k (f : R -> R) a b : (forall x, INR n + 1 < x -> a * (f (x - 1) - f x) <= (/ x) ^ m <= b * (f (x - 1) - f x)) ->
  a * (f (INR n + 1) - f (INR n + INR k + 1)) <= tail m n k <= b * (f (INR n + 1) - f (INR n + INR k + 1)).
Proof.
  intro H. unfold tail. induction k as [|k IH]; cbn [rsum]; [cbn [INR]; rewrite Rplus_0_r; lra|].
  specialize (H (INR (n + k + 2))). rewrite !plus_INR in H. change (INR 2) with 2 in H. replace (INR n + INR k + 2 - 1) with (INR n + INR k + 1) in H by ring.
  pose proof (pos_INR k). specialize (H ltac:(lra)). rewrite !plus_INR. change (INR 2) with 2. rewrite S_INR. replace (INR n + (INR k + 1) + 1) with (INR n + INR k + 2) by ring. lra.
Qed.
Lemma tail_2 n k : (1 <= n)%nat -> let N := INR n + 1 in let K := INR n + INR k + 1 in let T := / (N + 1 / 2) - / (K + 1 / 2) in
  (1 - / (4 * N ^ 2)) * T <= tail 2 n k <= T.
Proof.
  intros L N K T. pose proof (le_INR _ _ L) as LR. change (INR 1) with 1 in LR.
  destruct (tail_step 2 n k (fun x => / (x + 1 / 2)) (1 - / (4 * N ^ 2)) 1) as (A & B); [|fold N K T in A, B; lra].
  intros x X. fold N in X. assert (N2 : 2 <= N) by (unfold N; lra).
  assert (E : / (x - 1 + 1 / 2) - / (x + 1 / 2) = / (x ^ 2 - / 4)) by (field; nra). rewrite E.
  assert (P : 0 < x ^ 2 - / 4) by nra. assert (E2 : (/ x) ^ 2 = (1 - / (4 * x ^ 2)) * / (x ^ 2 - / 4)) by (field; split; lra).
  rewrite E2. pose proof (Rinv_0_lt_compat _ P) as Q.
  assert (0 < / (4 * x ^ 2)) by (apply Rinv_0_lt_compat; nra). assert (/ (4 * x ^ 2) <= / (4 * N ^ 2)) by (apply Rinv_le_contravar; nra).
  split; apply Rmult_le_compat_r; lra.
Qed.
Lemma tail_3 n k : (1 <= n)%nat -> let N := INR n + 1 in let K := INR n + INR k + 1 in let T := / 2 * (/ (N * (N + 1)) - / (K * (K + 1))) in
  (1 - / N ^ 2) * T <= tail 3 n k <= T.
Proof.
  intros L N K T. pose proof (le_INR _ _ L) as LR. change (INR 1) with 1 in LR.
  destruct (tail_step 3 n k (fun x => / 2 * / (x * (x + 1))) (1 - / N ^ 2) 1) as (A & B); [|fold N K in A, B; unfold T; lra].
  intros x X. fold N in X. assert (N2 : 2 <= N) by (unfold N; lra).
  assert (E : / 2 * / ((x - 1) * (x - 1 + 1)) - / 2 * / (x * (x + 1)) = / (x ^ 3 - x)) by (field; repeat split; nra). rewrite E.
  assert (P : 0 < x ^ 3 - x) by nra. assert (E2 : (/ x) ^ 3 = (1 - / x ^ 2) * / (x ^ 3 - x)) by (field; repeat split; nra).
  rewrite E2. pose proof (Rinv_0_lt_compat _ P) as Q.
  assert (0 < / x ^ 2) by (apply Rinv_0_lt_compat; nra). assert (/ x ^ 2 <= / N ^ 2) by (apply Rinv_le_contravar; nra).
  split; apply Rmult_le_compat_r; lra.
Qed.
Lemma tail_m m n k : 0 <= tail (S (S m)) n k <= (/ (INR n + 1)) ^ S m.
Proof.
  pose proof (pos_INR n) as P. pose proof (pos_INR k) as PK. set (N := INR n + 1).
  destruct (tail_step (S (S m)) n k (fun x => / x) 0 ((/ N) ^ m)) as (A & B).
  - intros x X. fold N in X. assert (1 <= N) by (unfold N; lra). split; [rewrite Rmult_0_l; apply pow_le, Rlt_le, Rinv_0_lt_compat; lra|].
    replace ((/ x) ^ S (S m)) with ((/ x) ^ m * ((/ x) * (/ x))) by (cbn [pow]; ring).
    assert (0 < / x) by (apply Rinv_0_lt_compat; lra). apply Rmult_le_compat; [apply pow_le; lra|nra|apply pow_incr; split; [lra|apply Rinv_le_contravar; lra]|].
    replace (/ (x - 1) - / x) with (/ ((x - 1) * x)) by (field; split; lra). rewrite <- Rinv_mult. apply Rinv_le_contravar; nra.
  - rewrite Rmult_0_l in A. split; [exact A|]. apply Rle_trans with (1 := B). cbn [pow]. fold N. rewrite Rmult_comm. apply Rmult_le_compat_r; [apply pow_le, Rlt_le, Rinv_0_lt_compat; unfold N; lra|].
    assert (0 < / (INR n + INR k + 1)) by (apply Rinv_0_lt_compat; lra). lra.
Qed.

(** ** Harmonic numbers, by doubling *)
Definition harm (n : nat) : R := rsum n (fun i => / INR (i + 1)).
Definition leap (n : nat) : R := harm (2 * n) - harm n.
Definition level (n : nat) : R := leap n + / (4 * INR n) - / (16 * INR n ^ 2).
Lemma level_step n : (1 <= n)%nat -> level (S n) - level n = / (16 * INR n ^ 2 * (INR n + 1) ^ 2 * (2 * INR n + 1)).
Proof.
  intro L. pose proof (le_INR _ _ L) as LR. change (INR 1) with 1 in LR. unfold level, leap. replace (2 * S n)%nat with (S (S (2 * n))) by lia. unfold harm at 1 2. cbn [rsum]. fold (harm (2 * n)) (harm n).
  replace (S (2 * n) + 1)%nat with (2 * (n + 1))%nat by lia. rewrite !plus_INR, !mult_INR, !plus_INR, (S_INR n). change (INR 2) with 2. change (INR 1) with 1. field. repeat split; lra.
Qed.
Lemma level_bounds N : (1 <= N)%nat -> forall d, level N <= level (N + d) <= level N + / (32 * INR N ^ 3) * (/ INR N - / (INR N + INR d)).
Proof.
  intro L. pose proof (le_INR _ _ L) as LR. change (INR 1) with 1 in LR. induction d as [|d IH].
  - rewrite Nat.add_0_r. cbn [INR]. rewrite Rplus_0_r. lra.
  - pose proof (level_step (N + d) ltac:(lia)) as E. rewrite Nat.add_succ_r, S_INR. pose proof (pos_INR d). rewrite !plus_INR in E. set (x := INR N + INR d) in *.
    replace (INR N + (INR d + 1)) with (x + 1) by (unfold x; ring). assert (X : INR N <= x) by (unfold x; lra). clearbody x.
    assert (P : 0 < / (16 * x ^ 2 * (x + 1) ^ 2 * (2 * x + 1))) by (apply Rinv_0_lt_compat; apply Rmult_lt_0_compat; [nra|lra]).
    assert (Q : / (16 * x ^ 2 * (x + 1) ^ 2 * (2 * x + 1)) <= / (32 * INR N ^ 3) * (/ x - / (x + 1))).
    { replace (/ (32 * INR N ^ 3) * (/ x - / (x + 1))) with (/ (32 * INR N ^ 3 * (x * (x + 1)))) by (field; repeat split; lra).
      apply Rinv_le_contravar.
      - apply Rmult_lt_0_compat; [|nra]. assert (0 < INR N ^ 3) by (apply pow_lt; lra). lra.
      - assert (A : INR N ^ 3 <= x ^ 3) by (apply pow_incr; lra). assert (B : x ^ 3 * (x * (x + 1)) * 32 <= 16 * x ^ 2 * (x + 1) ^ 2 * (2 * x + 1)).
        { replace (16 * x ^ 2 * (x + 1) ^ 2 * (2 * x + 1)) with (x * (x + 1) * (16 * x * (x + 1) * (2 * x + 1))) by ring. replace (x ^ 3 * (x * (x + 1)) * 32) with (x * (x + 1) * (32 * x ^ 3)) by ring. apply Rmult_le_compat_l; nra. }
        apply Rle_trans with (2 := B). assert (0 <= x * (x + 1)) by nra. nra. }
    lra.
Qed.
Lemma harm_doubling N : (1 <= N)%nat -> forall b,
  let base := harm N + INR b * level N - / (2 * INR N) * (1 - / 2 ^ b) + / (12 * INR N ^ 2) * (1 - / 4 ^ b) in
  base <= harm (N * 2 ^ b) <= base + INR b * / (32 * INR N ^ 4).
Proof.
  intro L. pose proof (le_INR _ _ L) as LR. change (INR 1) with 1 in LR. induction b as [|b IH]; cbv zeta in *.
  - cbn [Nat.pow]. rewrite Nat.mul_1_r. cbn [INR pow]. rewrite !Rinv_1. lra.
  - set (n := (N * 2 ^ b)%nat) in *. replace (N * 2 ^ S b)%nat with (2 * n)%nat by (unfold n; cbn [Nat.pow]; lia).
    assert (P2 : (1 <= 2 ^ b)%nat) by (clear; induction b; cbn [Nat.pow]; lia).
    assert (NN : (N <= n)%nat) by (unfold n; nia). destruct (level_bounds N L (n - N)) as (A & B). replace (N + (n - N))%nat with n in * by lia.
    replace (INR N + INR (n - N)) with (INR n) in B by (rewrite minus_INR by lia; ring).
    assert (E : harm (2 * n) = harm n + level n - / (4 * INR n) + / (16 * INR n ^ 2)) by (unfold level, leap; ring).
    rewrite E. assert (IN : INR n = INR N * 2 ^ b) by (unfold n; rewrite mult_INR, pow_INR; reflexivity). clearbody n.
    assert (T2 : 0 < 2 ^ b) by (apply pow_lt; lra). assert (T4 : 4 ^ b = 2 ^ b * 2 ^ b) by (rewrite <- Rpow_mult_distr; f_equal; ring).
    assert (B2 : level n <= level N + / (32 * INR N ^ 4)).
    { apply Rle_trans with (1 := B). apply Rplus_le_compat_l. replace (/ (32 * INR N ^ 4)) with (/ (32 * INR N ^ 3) * / INR N) by (field; lra).
      apply Rmult_le_compat_l; [apply Rlt_le, Rinv_0_lt_compat; assert (0 < INR N ^ 3) by (apply pow_lt; lra); lra|]. assert (0 < / INR n) by (apply Rinv_0_lt_compat; rewrite IN; nra). lra. }
    assert (E1 : / (4 * INR n) = / (2 * INR N) * (/ 2 ^ b - / 2 ^ S b)) by (rewrite IN; cbn [pow]; field; split; lra).
    assert (E2 : / (16 * INR n ^ 2) = / (12 * INR N ^ 2) * (/ 4 ^ b - / 4 ^ S b)) by (rewrite IN; cbn [pow]; rewrite T4; field; split; lra).
    rewrite E1, E2, S_INR. lra.
Qed.
Lemma psum_harm k : psum 1 k = harm (S k) - 1.
Proof.
  unfold psum, harm. rewrite rsum_first. change (0 + 1)%nat with 1%nat. change (INR 1) with 1. rewrite Rinv_1. 
  rewrite (rsum_ext k (fun i => / INR (S i + 1)) (fun i => (/ INR (i + 2)) ^ 1)); [ring|].
  intros i _. rewrite pow_1. f_equal. f_equal. lia.
Qed.
