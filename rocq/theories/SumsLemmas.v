From Coq Require Import ZArith Reals Lra Lia List Bool.
From Verif Require Import SumsModel SumsSpec KsSpec KsReals KsLemmas3 BaseLemmas.
Import ListNotations.
Open Scope R_scope.

(** ** Covariances *)
Definition ind (lo hi i : nat) : R := if (lo <=? i)%nat && (i <? hi)%nat then 1 else 0.
Lemma ind_sum lo hi : forall n, (lo <= hi)%nat -> (hi <= n)%nat -> rsum n (ind lo hi) = INR (hi - lo).
Proof.
  assert (Z : forall n, (n <= lo)%nat -> rsum n (ind lo hi) = 0).
  { induction n as [|n IH]; intro H; cbn [rsum]; [reflexivity|]. rewrite IH by lia. unfold ind. destruct (Nat.leb_spec lo n); [lia|]. cbn. ring. }
  assert (M : forall n, (lo <= n <= hi)%nat -> rsum n (ind lo hi) = INR (n - lo)).
  { intros n (H1 & H2). induction H1 as [|n H1 IH]; [rewrite Z, Nat.sub_diag by lia; reflexivity|]. cbn [rsum]. rewrite IH by lia.
    unfold ind. destruct (Nat.leb_spec lo n); [|lia]. destruct (Nat.ltb_spec n hi); [|lia]. cbn [andb]. replace (S n - lo)%nat with (S (n - lo)) by lia. rewrite S_INR. ring. }
  intros n H1 H2. induction H2 as [|n H2 IH]; [apply M; lia|]. cbn [rsum]. rewrite IH. unfold ind. destruct (Nat.ltb_spec n hi); [lia|]. rewrite andb_false_r. ring.
Qed.
Lemma ind_mul a b c d i : ind a b i * ind c d i = ind (Nat.max a c) (Nat.min b d) i.
Proof.
  unfold ind. destruct (Nat.leb_spec a i), (Nat.leb_spec c i), (Nat.ltb_spec i b), (Nat.ltb_spec i d), (Nat.leb_spec (Nat.max a c) i), (Nat.ltb_spec i (Nat.min b d)); cbn [andb]; try ring; lia.
Qed.
Lemma rsum_unit m k t : rsum m (fun i => unit_at k (t + i)) = ind t (t + m) k.
Proof.
  induction m as [|m IH]; cbn [rsum].
  - unfold ind. destruct (Nat.leb_spec t k), (Nat.ltb_spec k (t + 0)); cbn; try reflexivity; lia.
  - rewrite IH. unfold unit_at, ind. destruct (Nat.eqb_spec k (t + m)), (Nat.leb_spec t k), (Nat.ltb_spec k (t + m)), (Nat.ltb_spec k (t + S m)); cbn [andb]; try ring; lia.
Qed.
Lemma coef_over m t i : coefficient (overlapping m t) i = sqrt 12 * ind t (t + m) i.
Proof. unfold coefficient, overlapping. rewrite rsum_unit, rsum_zero. ring. Qed.
Lemma cov_over m n s t : (s < m)%nat -> (t < m)%nat -> (2 * m - 1 <= n)%nat ->
  covariance n (overlapping m s) (overlapping m t) = INR m - Rabs (INR s - INR t).
Proof.
  intros S T N. unfold covariance.
  rewrite (rsum_ext _ _ (fun i => 12 * ind (Nat.max s t) (Nat.min (s + m) (t + m)) i)).
  - rewrite <- rsum_scale, ind_sum by lia. replace (Nat.min (s + m) (t + m) - Nat.max s t)%nat with (m - (Nat.max s t - Nat.min s t))%nat by lia.
    rewrite !minus_INR by lia. replace (Rabs (INR s - INR t)) with (INR (Nat.max s t) - INR (Nat.min s t)); [field|].
    destruct (Nat.le_ge_cases s t) as [L|L].
    + rewrite Nat.max_r, Nat.min_l by lia. rewrite Rabs_left1; [ring|]. apply le_INR in L. lra.
    + rewrite Nat.max_l, Nat.min_r by lia. rewrite Rabs_pos_eq; [ring|]. apply le_INR in L. lra.
  - intros i _. rewrite !coef_over, <- ind_mul. replace (sqrt 12 * ind s (s + m) i * (sqrt 12 * ind t (t + m) i)) with (sqrt 12 * sqrt 12 * (ind s (s + m) i * ind t (t + m) i)) by ring.
    rewrite sqrt_sqrt by lra. reflexivity.
Qed.
Lemma cov_sym n F G : covariance n F G = covariance n G F.
Proof. unfold covariance. f_equal. apply rsum_ext. intros. ring. Qed.
Lemma cov_lin n a b c F G H K : covariance n (fun u => a * F u + b * G u + c * H u) K = a * covariance n F K + b * covariance n G K + c * covariance n H K.
Proof.
  unfold covariance. replace (a * (rsum n (fun i => coefficient F i * coefficient K i) / 12) + b * (rsum n (fun i => coefficient G i * coefficient K i) / 12) + c * (rsum n (fun i => coefficient H i * coefficient K i) / 12))
    with ((a * rsum n (fun i => coefficient F i * coefficient K i) + b * rsum n (fun i => coefficient G i * coefficient K i) + c * rsum n (fun i => coefficient H i * coefficient K i)) / 12) by field.
  f_equal. rewrite !rsum_scale, !rsum_plus. apply rsum_ext. intros i _. unfold coefficient. ring.
Qed.
Lemma cov_ext n F F' G : (forall u, F u = F' u) -> covariance n F G = covariance n F' G.
Proof. intro H. unfold covariance. f_equal. apply rsum_ext. intros. unfold coefficient. now rewrite !H. Qed.

(** ** Affinity *)
Lemma affine_ext n F G : (forall u, F u = G u) -> affine n F -> affine n G.
Proof.
  intros H A u. rewrite <- !H, A. f_equal. apply rsum_ext. intros i _. unfold coefficient. now rewrite !H.
Qed.
Lemma affine_over m n t : (t + m <= n)%nat -> affine n (overlapping m t).
Proof.
  intros L u. unfold overlapping at 1 2. rewrite rsum_zero.
  rewrite (rsum_ext n _ (fun i => sqrt 12 * (ind t (t + m) i * u i))) by (intros; rewrite coef_over; ring). rewrite <- rsum_scale.
  assert (E : rsum n (fun i => ind t (t + m) i * u i) = rsum m (fun i => u (t + i)%nat)); [|rewrite E; ring].
  clear -L. revert n L. induction m as [|m IH]; intros n L.
  - cbn [rsum]. rewrite (rsum_ext n _ (fun _ => 0)); [apply rsum_zero|]. intros i _. unfold ind. destruct (Nat.leb_spec t i), (Nat.ltb_spec i (t + 0)); cbn [andb]; try ring; lia.
  - cbn [rsum]. rewrite <- (IH n) by lia.
    assert (V : rsum n (fun i => if Nat.eqb i (t + m) then u i else 0) = u (t + m)%nat).
    { rewrite (rsum_single n _ (t + m)); [now rewrite Nat.eqb_refl|lia|]. intros j _ Ne. destruct (Nat.eqb_spec j (t + m)); [lia|reflexivity]. }
    rewrite <- V, rsum_plus. apply rsum_ext. intros i _. unfold ind.
    destruct (Nat.eqb_spec i (t + m)), (Nat.leb_spec t i), (Nat.ltb_spec i (t + m)), (Nat.ltb_spec i (t + S m)); cbn [andb]; try ring; lia.
Qed.
Lemma affine_lin n a b c F G H : affine n F -> affine n G -> affine n H -> affine n (fun u => a * F u + b * G u + c * H u).
Proof.
  intros AF AG AH u. rewrite (AF u), (AG u), (AH u).
  rewrite (rsum_ext n (fun i => coefficient (fun u0 => a * F u0 + b * G u0 + c * H u0) i * u i)
    (fun i => (a * (coefficient F i * u i) + b * (coefficient G i * u i)) + c * (coefficient H i * u i))) by (intros; unfold coefficient; ring).
  rewrite <- !rsum_plus, <- !rsum_scale. ring.
Qed.

(** ** The transformations *)
Definition mix (a b c : R) (m i j k : nat) : (nat -> R) -> R := fun u => a * overlapping m i u + b * overlapping m j u + c * overlapping m k u.
Lemma affine_mix n a b c m i j k : (i + m <= n)%nat -> (j + m <= n)%nat -> (k + m <= n)%nat -> affine n (mix a b c m i j k).
Proof. intros. unfold mix. apply affine_lin; now apply affine_over. Qed.
Lemma cov_mix n a b c m i j k K : covariance n (mix a b c m i j k) K =
  a * covariance n (overlapping m i) K + b * covariance n (overlapping m j) K + c * covariance n (overlapping m k) K.
Proof. apply cov_lin. Qed.
Definition scale (m t : nat) : R := / sqrt (2 * (2 * INR m + 1 - INR t) * (2 * INR m + 1 - INR t - 1)).
Lemma a_pos m t : (t < m)%nat -> INR m + 1 < 2 * INR m + 1 - INR t.
Proof. intro H. apply lt_INR in H. lra. Qed.
Lemma scale_pos m t : (2 <= m)%nat -> (t < m)%nat -> 0 < scale m t /\ scale m t * scale m t * (2 * (2 * INR m + 1 - INR t) * (2 * INR m + 1 - INR t - 1)) = 1.
Proof.
  intros M T. pose proof (a_pos m t T) as A. set (a := 2 * INR m + 1 - INR t) in *. assert (2 <= INR m) by (apply le_INR in M; exact M).
  assert (P : 0 < 2 * a * (a - 1)) by nra. unfold scale. fold a. pose proof (sqrt_lt_R0 _ P) as Sq. split; [now apply Rinv_0_lt_compat|].
  pose proof (sqrt_sqrt (2 * a * (a - 1)) (Rlt_le _ _ P)) as E. set (q := sqrt _) in *. clearbody q. rewrite <- E. field. lra.
Qed.
Lemma mars_0 m u : (2 <= m)%nat -> marsaglia m 0 u = mix (/ sqrt (INR m)) 0 0 m 0 0 0 u.
Proof. intro M. unfold marsaglia, mix. unfold Rdiv. ring. Qed.
Lemma mars_1 m u : (2 <= m)%nat -> marsaglia m 1 u = mix (- ((INR m - 1) / INR m) * sqrt (INR m / (2 * INR m - 1))) (sqrt (INR m / (2 * INR m - 1))) 0 m 0 1 0 u.
Proof. intro M. unfold marsaglia, mix. ring. Qed.
Lemma mars_t m t u : (2 <= t)%nat -> marsaglia m t u =
  mix (scale m t) (- (scale m t * (2 * INR m + 1 - INR t - 1))) (scale m t * (2 * INR m + 1 - INR t)) m 0 (t - 1) t u.
Proof. intro T. destruct t as [|[|t]]; [lia|lia|]. unfold marsaglia, mix, scale. unfold Rdiv. ring. Qed.
Lemma dh_t m t u : dieharder_sums m t u =
  mix (scale m t) (- (scale m t * (2 * INR m + 1 - INR t - 1))) (scale m t * (2 * INR m + 1 - INR t)) m (t - 2) (t - 1) t u.
Proof. unfold dieharder_sums, mix, scale. unfold Rdiv. ring. Qed.
(** each transformed sum has no correlation with the earlier sums *)
Lemma mars_prev m n s t : (2 <= m)%nat -> (s < t)%nat -> (t < m)%nat -> (2 * m - 1 <= n)%nat -> covariance n (marsaglia m t) (overlapping m s) = 0.
Proof.
  intros M S T N. assert (MR : 2 <= INR m) by (apply le_INR in M; exact M).
  destruct (Nat.le_gt_cases 2 t) as [L|L].
  - rewrite (cov_ext n _ _ _ (fun u => mars_t m t u L)), cov_mix, !cov_over by lia. rewrite minus_INR by lia.
    assert (S' : INR s <= INR t - 1) by (apply le_INR in S; rewrite S_INR in S; lra). pose proof (pos_INR s).
    change (INR 0) with 0. change (INR 1) with 1. rewrite (Rabs_left1 (0 - INR s)) by lra. rewrite !Rabs_pos_eq by lra. ring.
  - assert (t = 1 /\ s = 0)%nat as (-> & ->) by lia. rewrite (cov_ext n _ _ _ (fun u => mars_1 m u M)), cov_mix, !cov_over by lia.
    change (INR 0) with 0. change (INR 1) with 1. rewrite Rminus_0_r, !(Rabs_pos_eq 0), Rabs_pos_eq by lra. rewrite Rminus_diag || idtac.
    replace (Rabs (0 - 0)) with 0 by (rewrite Rminus_0_r, Rabs_R0; reflexivity). field. lra.
Qed.
Lemma mars_var m n t : (2 <= m)%nat -> (t < m)%nat -> (2 * m - 1 <= n)%nat -> covariance n (marsaglia m t) (marsaglia m t) = 1.
Proof.
  intros M T N. assert (MR : 2 <= INR m) by (apply le_INR in M; exact M).
  destruct t as [|[|t]].
  - rewrite (cov_ext n _ _ _ (fun u => mars_0 m u M)), cov_mix, cov_sym, (cov_ext n _ _ _ (fun u => mars_0 m u M)), cov_mix, !cov_over by lia.
    replace (INR 0 - INR 0) with 0 by ring. rewrite Rabs_R0. assert (P : 0 < INR m) by lra. pose proof (sqrt_lt_R0 _ P). pose proof (sqrt_sqrt (INR m) ltac:(lra)) as E.
    set (q := sqrt _) in *. clearbody q. rewrite <- E. field. lra.
  - rewrite (cov_ext n _ _ _ (fun u => mars_1 m u M)), cov_mix. rewrite !(cov_sym n (overlapping m _) (marsaglia m 1)). rewrite mars_prev by lia.
    rewrite (cov_ext n (marsaglia m 1) _ _ (fun u => mars_1 m u M)), cov_mix, !cov_over by lia. change (INR 0) with 0. change (INR 1) with 1.
    replace (1 - 1) with 0 by ring. rewrite Rabs_R0, (Rabs_left1 (0 - 1)) by lra.
    assert (P : 0 < INR m / (2 * INR m - 1)) by (apply Rdiv_lt_0_compat; lra). pose proof (sqrt_sqrt _ (Rlt_le _ _ P)) as E. set (q := sqrt _) in *. clearbody q.
    transitivity (q * q * (INR m - (INR m - 1) * (INR m - 1) / INR m)); [field; lra|]. rewrite E. field. lra.
  - set (k := S (S t)) in *. assert (K : (2 <= k)%nat) by (unfold k; lia). clearbody k.
    rewrite (cov_ext n _ _ _ (fun u => mars_t m k u K)), cov_mix. rewrite !(cov_sym n (overlapping m _) (marsaglia m k)). rewrite !mars_prev by lia.
    rewrite (cov_ext n (marsaglia m k) _ _ (fun u => mars_t m k u K)), cov_mix, !cov_over by lia. rewrite minus_INR by lia. change (INR 0) with 0. change (INR 1) with 1.
    assert (KR : 2 <= INR k) by (apply le_INR in K; exact K).
    replace (INR k - INR k) with 0 by ring. rewrite Rabs_R0, !Rabs_left1 by lra. destruct (scale_pos m k M T) as (_ & E).
    set (q := scale m k) in *. clearbody q. set (a := 2 * INR m + 1 - INR k) in *.
    transitivity (q * q * (2 * a * (a - 1))); [|exact E]. assert (AE : INR k = 2 * INR m + 1 - a) by (unfold a; ring). rewrite AE. ring.
Qed.
