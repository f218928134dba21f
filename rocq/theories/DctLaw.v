(** Sums of cosines, and the law of the transform of independent words. *)
From Coq Require Import Lia Lra.
From Verif Require Import BaseLemmas KsLemmas3 OpermReal RunsArcs MissingLaw.
From Verif Require Export DctLemmas.
Open Scope R_scope.

Lemma half_sum t n : 2 * sin (t / 2) * rsum n (fun j => cos ((INR j + 1 / 2) * t)) = sin (INR n * t).
Proof.
  induction n as [|n IH]; [cbn [rsum INR]; rewrite !Rmult_0_l, sin_0; ring|]. cbn [rsum]. rewrite Rmult_plus_distr_l, IH, S_INR.
  replace ((INR n + 1) * t) with ((INR n + 1 / 2) * t + t / 2) by field. replace (INR n * t) with ((INR n + 1 / 2) * t - t / 2) by field.
  rewrite sin_plus, sin_minus. ring.
Qed.
Lemma whole_sum t n : 2 * sin (t / 2) * rsum n (fun j => cos (INR j * t)) = sin (t / 2) + sin ((INR n - 1 / 2) * t).
Proof.
  induction n as [|n IH].
  - cbn [rsum INR]. replace ((0 - 1 / 2) * t) with (- (t / 2)) by field. rewrite sin_neg. ring.
  - cbn [rsum]. rewrite Rmult_plus_distr_l, IH, S_INR. replace ((INR n + 1 - 1 / 2) * t) with (INR n * t + t / 2) by field. replace ((INR n - 1 / 2) * t) with (INR n * t - t / 2) by field.
    rewrite sin_plus, sin_minus. ring.
Qed.
Lemma sin_nat p : sin (INR p * PI) = 0.
Proof. apply sin_eq_0_1. exists (Z.of_nat p). now rewrite INR_IZR_INZ. Qed.
Lemma sin_pos n p : (0 < p < 2 * n)%nat -> 0 < sin (INR p * PI / INR n / 2).
Proof.
  intro H. assert (N : 0 < INR n) by (apply lt_0_INR; lia). assert (P : 0 < INR p) by (apply lt_0_INR; lia). pose proof PI_RGT_0.
  assert (L : INR p < 2 * INR n) by (replace 2 with (INR 2) by reflexivity; rewrite <- mult_INR; apply lt_INR; lia).
  assert (E : INR p * PI / INR n / 2 = INR p / (2 * INR n) * PI) by (field; lra). rewrite E.
  assert (Q : 0 < INR p / (2 * INR n) < 1).
  { split; [apply Rdiv_lt_0_compat; lra|]. apply (Rmult_lt_reg_r (2 * INR n)); [lra|]. unfold Rdiv. rewrite Rmult_assoc, Rinv_l by lra. lra. }
  apply sin_gt_0; nra.
Qed.
Lemma cos_half_zero n p : (0 < p < 2 * n)%nat -> rsum n (fun j => cos (PI * (INR j + 1 / 2) * INR p / INR n)) = 0.
Proof.
  intro H. assert (N : 0 < INR n) by (apply lt_0_INR; lia). pose proof (half_sum (INR p * PI / INR n) n) as E.
  replace (INR n * (INR p * PI / INR n)) with (INR p * PI) in E by (field; lra). rewrite sin_nat in E. pose proof (sin_pos n p H) as S0.
  rewrite (rsum_ext n _ (fun j => cos ((INR j + 1 / 2) * (INR p * PI / INR n)))) by (intros; f_equal; field; lra).
  apply (Rmult_eq_reg_l (2 * sin (INR p * PI / INR n / 2))); [rewrite E; ring|lra].
Qed.
(** the cosines are orthogonal *)
Lemma cos_product n i k : (i < n)%nat -> (k < n)%nat ->
  rsum n (fun j => cos (PI * (INR j + 1 / 2) * INR i / INR n) * cos (PI * (INR j + 1 / 2) * INR k / INR n)) = if (i =? k)%nat then (if (i =? 0)%nat then INR n else INR n / 2) else 0.
Proof.
  intros I K. assert (N : 0 < INR n) by (apply lt_0_INR; lia).
  assert (G : forall a b, (b <= a)%nat -> (a < n)%nat -> rsum n (fun j => cos (PI * (INR j + 1 / 2) * INR a / INR n) * cos (PI * (INR j + 1 / 2) * INR b / INR n)) = if (a =? b)%nat then (if (a =? 0)%nat then INR n else INR n / 2) else 0).
  { intros a b B A. rewrite (rsum_ext n _ (fun j => 1 / 2 * cos (PI * (INR j + 1 / 2) * INR (a - b) / INR n) + 1 / 2 * cos (PI * (INR j + 1 / 2) * INR (a + b) / INR n))).
    2:{ intros j _. rewrite minus_INR by exact B. rewrite plus_INR.
      replace (PI * (INR j + 1 / 2) * (INR a - INR b) / INR n) with (PI * (INR j + 1 / 2) * INR a / INR n - PI * (INR j + 1 / 2) * INR b / INR n) by (field; lra).
      replace (PI * (INR j + 1 / 2) * (INR a + INR b) / INR n) with (PI * (INR j + 1 / 2) * INR a / INR n + PI * (INR j + 1 / 2) * INR b / INR n) by (field; lra).
      rewrite cos_minus, cos_plus. field. }
    rewrite <- rsum_plus, <- !rsum_scale. destruct (Nat.eqb_spec a b) as [<-|NE].
    - replace (a - a)%nat with 0%nat by lia. rewrite (rsum_ext n (fun k0 => cos (PI * (INR k0 + 1 / 2) * INR 0 / INR n)) (fun _ => 1)) by (intros; cbn [INR]; unfold Rdiv; rewrite Rmult_0_r, Rmult_0_l; apply cos_0).
      rewrite rsum_const. destruct (Nat.eqb_spec a 0) as [->|A0].
      + rewrite (rsum_ext n _ (fun _ => 1)) by (intros; cbn [Nat.add INR]; unfold Rdiv; rewrite Rmult_0_r, Rmult_0_l; apply cos_0). rewrite rsum_const. field.
      + rewrite cos_half_zero by lia. field.
    - rewrite !cos_half_zero by lia. ring. }
  destruct (Nat.le_ge_cases k i) as [L|L]; [now apply G|]. rewrite (rsum_ext n _ (fun j => cos (PI * (INR j + 1 / 2) * INR k / INR n) * cos (PI * (INR j + 1 / 2) * INR i / INR n))) by (intros; ring).
  rewrite G by assumption. rewrite (Nat.eqb_sym k i). destruct (Nat.eqb_spec i k) as [->|]; reflexivity.
Qed.
Lemma cos_whole n p : (0 < p < 2 * n)%nat -> rsum n (fun j => cos (PI * INR p * INR j / INR n)) = (1 - cos (INR p * PI)) / 2.
Proof.
  intro H. assert (N : 0 < INR n) by (apply lt_0_INR; lia). pose proof (whole_sum (INR p * PI / INR n) n) as E. pose proof (sin_pos n p H) as S0.
  replace ((INR n - 1 / 2) * (INR p * PI / INR n)) with (INR p * PI - INR p * PI / INR n / 2) in E by (field; lra). rewrite sin_minus, sin_nat in E.
  rewrite (rsum_ext n _ (fun j => cos (INR j * (INR p * PI / INR n)))) by (intros; f_equal; field; lra).
  apply (Rmult_eq_reg_l (2 * sin (INR p * PI / INR n / 2))); [rewrite E; field|lra].
Qed.
Lemma cos_odd p q : cos (INR (p + (2 * q + 1)) * PI) = - cos (INR p * PI).
Proof.
  rewrite plus_INR. replace (INR (2 * q + 1)) with (2 * INR q + 1) by (rewrite plus_INR, mult_INR; cbn; ring). replace ((INR p + (2 * INR q + 1)) * PI) with ((INR p * PI + PI) + 2 * INR q * PI) by ring.
  rewrite cos_period, neg_cos. reflexivity.
Qed.
(** the rows are orthogonal too *)
Lemma cos_rows n i m : (i < n)%nat -> (m < n)%nat ->
  rsum n (fun j => cos (PI * (INR m + 1 / 2) * INR j / INR n) * cos (PI * (INR i + 1 / 2) * INR j / INR n)) - 1 / 2 = if (m =? i)%nat then INR n / 2 else 0.
Proof.
  intros I M. assert (N : 0 < INR n) by (apply lt_0_INR; lia).
  assert (G : forall a b, (b <= a)%nat -> (a < n)%nat -> rsum n (fun j => cos (PI * (INR a + 1 / 2) * INR j / INR n) * cos (PI * (INR b + 1 / 2) * INR j / INR n)) - 1 / 2 = if (a =? b)%nat then INR n / 2 else 0).
  { intros a b B A. rewrite (rsum_ext n _ (fun j => 1 / 2 * cos (PI * INR (a - b) * INR j / INR n) + 1 / 2 * cos (PI * INR (a - b + (2 * b + 1)) * INR j / INR n))).
    2:{ intros j _. rewrite plus_INR, minus_INR by exact B. replace (INR (2 * b + 1)) with (2 * INR b + 1) by (rewrite plus_INR, mult_INR; cbn; ring).
      replace (PI * (INR a - INR b) * INR j / INR n) with (PI * (INR a + 1 / 2) * INR j / INR n - PI * (INR b + 1 / 2) * INR j / INR n) by (field; lra).
      replace (PI * (INR a - INR b + (2 * INR b + 1)) * INR j / INR n) with (PI * (INR a + 1 / 2) * INR j / INR n + PI * (INR b + 1 / 2) * INR j / INR n) by (field; lra).
      rewrite cos_minus, cos_plus. field. }
    rewrite <- rsum_plus, <- !rsum_scale. rewrite (cos_whole n (a - b + (2 * b + 1))) by lia. rewrite cos_odd. destruct (Nat.eqb_spec a b) as [<-|NE].
    - replace (a - a)%nat with 0%nat by lia. rewrite (rsum_ext n _ (fun _ => 1)) by (intros; cbn [INR]; unfold Rdiv; rewrite Rmult_0_r, !Rmult_0_l; apply cos_0).
      rewrite rsum_const. cbn [INR]. rewrite Rmult_0_l, cos_0. field.
    - rewrite cos_whole by lia. field. }
  destruct (Nat.le_ge_cases i m) as [L|L]; [now apply G|]. rewrite (rsum_ext n _ (fun j => cos (PI * (INR i + 1 / 2) * INR j / INR n) * cos (PI * (INR m + 1 / 2) * INR j / INR n))) by (intros; ring).
  rewrite G by assumption. rewrite (Nat.eqb_sym i m). reflexivity.
Qed.

(** ** Linear forms in independent words *)
Lemma seq_moments m : lsumR (seq 0 m) INR = INR m * (INR m - 1) / 2 /\ lsumR (seq 0 m) (fun k => INR k * INR k) = INR m * (INR m - 1) * (2 * INR m - 1) / 6.
Proof.
  induction m as [|m (A & B)]; [cbn; split; field|]. rewrite seq_S. rewrite !lsumR_app. cbn [lsumR Nat.add].
  rewrite A, B, S_INR. split; field.
Qed.
Section Words.
Variable w : N.
Definition qw : R := IZR (2 ^ Z.of_N w).
Definition val (x : N) : R := IZR (Z.of_N x).
Lemma qw_nat : INR (N.to_nat (2 ^ w)) = qw.
Proof. unfold qw. rewrite INR_IZR_INZ, N_nat_Z, N2Z.inj_pow. reflexivity. Qed.
Lemma qw_pos : 0 < qw.
Proof. unfold qw. apply IZR_lt. apply Z.pow_pos_nonneg; lia. Qed.
Definition mu : R := (qw - 1) / 2.
Lemma word_mean : lsumR (words w) val = qw * mu.
Proof.
  unfold words. rewrite lsumR_map. rewrite (lsumR_ext _ _ INR) by (intros x _; unfold val; now rewrite nat_N_Z, <- INR_IZR_INZ).
  rewrite (proj1 (seq_moments _)), qw_nat. unfold mu. field.
Qed.
Lemma word_square : lsumR (words w) (fun x => val x * val x) = qw * ((qw * qw - 1) / 12 + mu * mu).
Proof.
  unfold words. rewrite lsumR_map. rewrite (lsumR_ext _ _ (fun k => INR k * INR k)) by (intros x _; unfold val; now rewrite nat_N_Z, <- INR_IZR_INZ).
  rewrite (proj2 (seq_moments _)), qw_nat. unfold mu. field.
Qed.
Lemma words_one c : lsumR (words w) (fun _ => c) = qw * c.
Proof. rewrite lsumR_const. unfold words. now rewrite map_length, seq_length, qw_nat. Qed.
Definition form (n : nat) (c : nat -> R) (l : list N) : R := rsum n (fun j => c j * word l j).
Lemma form_cons n c r l : form (S n) c (r :: l) = c 0%nat * val r + form n (fun j => c (S j)) l.
Proof. unfold form. rewrite rsum_head. reflexivity. Qed.
Lemma form_sum n : forall c, lsumR (matrices w n) (form n c) = qw ^ n * (mu * rsum n c).
Proof.
  induction n as [|n IH]; intro c; [cbn; unfold form; cbn; ring|]. rewrite matrices_sum.
  rewrite (lsumR_ext _ _ (fun rows => qw * mu * c 0%nat + qw * form n (fun j => c (S j)) rows)).
  2:{ intros l _. rewrite (lsumR_ext _ _ (fun r => c 0%nat * val r + form n (fun j => c (S j)) l)) by (intros; apply form_cons).
    rewrite lsumR_plus, lsumR_scale, word_mean, words_one. ring. }
  rewrite lsumR_plus, lsumR_const, lsumR_scale, IH, matrices_len, (rsum_head n c). fold qw. cbn [pow]. ring.
Qed.
Lemma form_product n : forall c d, lsumR (matrices w n) (fun l => form n c l * form n d l) =
  qw ^ n * ((qw * qw - 1) / 12 * rsum n (fun j => c j * d j) + mu * rsum n c * (mu * rsum n d)).
Proof.
  induction n as [|n IH]; intros c d; [cbn; unfold form; cbn; ring|]. rewrite matrices_sum.
  rewrite (lsumR_ext _ _ (fun l => qw * ((qw * qw - 1) / 12 + mu * mu) * (c 0%nat * d 0%nat) + (qw * mu * c 0%nat * form n (fun j => d (S j)) l + (qw * mu * d 0%nat * form n (fun j => c (S j)) l + qw * (form n (fun j => c (S j)) l * form n (fun j => d (S j)) l))))).
  2:{ intros l _. rewrite (lsumR_ext _ _ (fun r => (c 0%nat * d 0%nat) * (val r * val r) + ((c 0%nat * form n (fun j => d (S j)) l + d 0%nat * form n (fun j => c (S j)) l) * val r + form n (fun j => c (S j)) l * form n (fun j => d (S j)) l))) by (intros; rewrite !form_cons; ring).
    rewrite !lsumR_plus, !lsumR_scale, word_mean, word_square, words_one. ring. }
  rewrite !lsumR_plus, lsumR_const, !lsumR_scale, !form_sum, IH, matrices_len, (rsum_head n c), (rsum_head n d), (rsum_head n (fun j => c j * d j)). fold qw. cbn [pow]. ring.
Qed.
Lemma avg_matrices n f : average (matrices w n) f = lsumR (matrices w n) f / qw ^ n.
Proof. unfold average. rewrite matrices_len. reflexivity. Qed.
Lemma form_mean n c : average (matrices w n) (fun l => form n c l - mu * rsum n c) = 0.
Proof.
  rewrite avg_matrices. rewrite (lsumR_ext _ _ (fun l => form n c l + - (mu * rsum n c))) by (intros; ring). rewrite lsumR_plus, lsumR_const, form_sum, matrices_len. fold qw.
  field. apply pow_nonzero. pose proof qw_pos. lra.
Qed.
Lemma form_cov n c d : average (matrices w n) (fun l => (form n c l - mu * rsum n c) * (form n d l - mu * rsum n d)) = (qw * qw - 1) / 12 * rsum n (fun j => c j * d j).
Proof.
  rewrite avg_matrices. rewrite (lsumR_ext _ _ (fun l => form n c l * form n d l + (- (mu * rsum n d) * form n c l + (- (mu * rsum n c) * form n d l + mu * rsum n c * (mu * rsum n d))))) by (intros; ring).
  rewrite !lsumR_plus, lsumR_const, !lsumR_scale, !form_sum, form_product, matrices_len. fold qw. field. apply pow_nonzero. pose proof qw_pos. lra.
Qed.
End Words.
