From Coq Require Import Reals Lra Lia.
From Flocq Require Import Core IEEE754.BinarySingleNaN.
From Verif Require Import BaseLemmas ReportModel ReportSpec DoubleLemmas DoubleLemmas2 ReportLemmas.
Open Scope R_scope.

(** * The ten bins of the printed histogram are exact *)
Notation s10 := (binscale dzero done 10).

Lemma quot_mono : forall p q, is_finite p = true -> is_finite q = true ->
  0 <= B2R p <= 1 -> 0 <= B2R q <= 1 -> B2R p <= B2R q ->
  B2R (ddiv p s10) <= B2R (ddiv q s10).
Proof.
  intros p q Fp Fq Bp Bq L.
  destruct (quot_val 10 p ltac:(lia) Fp Bp) as (_ & Vp & _).
  destruct (quot_val 10 q ltac:(lia) Fq Bq) as (_ & Vq & _).
  destruct (scale_val 10 ltac:(lia)) as (_ & S & _).
  assert (P : 0 < bpow radix2 (-30)) by apply bpow_gt_0.
  rewrite Vp, Vq. apply rnd_le. apply Rmult_le_compat_r; [|exact L].
  apply Rlt_le, Rinv_0_lt_compat. lra.
Qed.

(** [a] and [b] are neighbours on either side of k/10. *)
Lemma edge : forall k a b, (0 <= k <= 10)%Z ->
  is_finite a = true -> is_finite b = true -> 0 <= B2R a -> B2R b <= 1 ->
  deq (Bsucc a) b = true -> is_finite (Bsucc a) = true ->
  B2R a < IZR k / 10 <= B2R b ->
  dlt (ddiv a s10) (d_of_Z k) = true -> dle (d_of_Z k) (ddiv b s10) = true ->
  forall p, is_finite p = true -> 0 <= B2R p <= 1 ->
  (IZR k <= B2R (ddiv p s10) <-> IZR k / 10 <= B2R p).
Proof.
  intros k a b Hk Fa Fb A0 B1 S Fs [L1 L2] Q1 Q2 p Fp Bp.
  destruct (val_d_of_Z k) as [Vk Nk]; [lia|].
  assert (Es : B2R (Bsucc a) = B2R b).
  { apply deq_val in S; try (apply finite_nan; assumption).
    rewrite !val_finite in S by assumption. exact S. }
  destruct (quot_val 10 a ltac:(lia) Fa ltac:(lra)) as (Fqa & _).
  destruct (quot_val 10 b ltac:(lia) Fb ltac:(lra)) as (Fqb & _).
  apply dlt_val in Q1; [|apply finite_nan; assumption|exact Nk].
  apply dle_val in Q2; [|exact Nk|apply finite_nan; assumption].
  rewrite Vk in Q1, Q2. rewrite (val_finite _ Fqa) in Q1. rewrite (val_finite _ Fqb) in Q2.
  destruct (neighbour a p Fa Fs Fp) as [N|N].
  - pose proof (quot_mono p a Fp Fa Bp ltac:(lra) N). split; intro; lra.
  - rewrite Es in N. pose proof (quot_mono b p Fb Fp ltac:(lra) Bp N). split; intro; lra.
Qed.

Definition dl (m : positive) (e : Z) (H : SpecFloat.bounded 53 1024 m e = true) : double :=
  @B754_finite 53 1024 false m e H.

Ltac edge_solve a b :=
  apply (edge _ a b); try assumption; try reflexivity; try lia;
  try (vm_compute; reflexivity); try (cbn; unfold F2R; cbn; lra).

Lemma edges : forall k p, (1 <= k <= 9)%Z -> is_finite p = true -> 0 <= B2R p <= 1 ->
  (IZR k <= B2R (ddiv p s10) <-> IZR k / 10 <= B2R p).
Proof.
  intros k p Hk Fp Bp.
  assert (C : k = 1%Z \/ k = 2%Z \/ k = 3%Z \/ k = 4%Z \/ k = 5%Z \/ k = 6%Z \/ k = 7%Z \/ k = 8%Z \/ k = 9%Z) by lia.
  destruct C as [-> |[-> |[-> |[-> |[-> |[-> |[-> |[-> | ->]]]]]]]].
  - edge_solve (dl 7205759403792793 (-56) eq_refl) (dl 7205759403792794 (-56) eq_refl).
  - edge_solve (dl 7205759403792793 (-55) eq_refl) (dl 7205759403792794 (-55) eq_refl).
  - edge_solve (dl 5404319552844595 (-54) eq_refl) (dl 5404319552844596 (-54) eq_refl).
  - edge_solve (dl 7205759403792793 (-54) eq_refl) (dl 7205759403792794 (-54) eq_refl).
  - edge_solve (dl 9007199254740991 (-54) eq_refl) (dl 4503599627370496 (-53) eq_refl).
  - edge_solve (dl 5404319552844595 (-53) eq_refl) (dl 5404319552844596 (-53) eq_refl).
  - edge_solve (dl 6305039478318694 (-53) eq_refl) (dl 6305039478318695 (-53) eq_refl).
  - edge_solve (dl 7205759403792793 (-53) eq_refl) (dl 7205759403792794 (-53) eq_refl).
  - edge_solve (dl 8106479329266892 (-53) eq_refl) (dl 8106479329266893 (-53) eq_refl).
Qed.

Lemma Zfloor_ge : forall x k, (k <= Zfloor x)%Z <-> IZR k <= x.
Proof.
  intros x k. split; intro H.
  - apply Rle_trans with (IZR (Zfloor x)); [apply IZR_le, H|apply Zfloor_lb].
  - apply Zfloor_lub, H.
Qed.

Lemma ten_bins : forall k p, (k < 10)%nat -> is_finite p = true -> 0 <= B2R p <= 1 ->
  (in_bin 10 k p = true <->
   INR k / 10 <= B2R p /\ (B2R p < INR (S k) / 10 \/ k = 9%nat)).
Proof.
  intros k p Hk Fp Bp. unfold in_bin.
  destruct (bin_of_ok 10 p ltac:(lia) Fp Bp) as [E Z0]. rewrite E.
  set (q := ddiv p s10) in *.
  assert (L : forall j, (0 <= j <= 9)%Z -> ((j <= Zfloor (B2R q))%Z <-> IZR j / 10 <= B2R p)).
  { intros j Hj. destruct (Z.eq_dec j 0) as [->|Nj].
    - split; intro; [lra|exact Z0].
    - rewrite Zfloor_ge. apply edges; auto. lia. }
  rewrite Z.eqb_eq. rewrite !INR_IZR_INZ.
  pose proof (L (Z.of_nat k) ltac:(lia)) as L1.
  destruct (Nat.eq_dec k 9) as [->|N9].
  - split.
    + intro H. split; [|right; reflexivity]. apply L1. lia.
    + intros [H _]. apply L1 in H. lia.
  - pose proof (L (Z.of_nat (S k)) ltac:(lia)) as L2. split.
    + intro H. split; [apply L1; lia|left]. apply Rnot_le_lt. intro X. apply L2 in X. lia.
    + intros [H1 [H2|H2]]; [|lia]. apply L1 in H1.
      assert (~ (Z.of_nat (S k) <= Zfloor (B2R q))%Z) by (intro X; apply L2 in X; lra). lia.
Qed.

(** * The vertical scale *)
Open Scope N_scope.
Lemma rescale_ok : forall fuel binmax v,
  binmax < 2 ^ 31 -> 20 * v < 2 ^ 32 -> binmax < 20 * (v + N.of_nat fuel) -> (0 < fuel)%nat ->
  exists v', rescale (S fuel) binmax v = Ok v' /\ binmax < 20 * v' < 2 ^ 32 /\ v <= v' /\
    (v < v' -> 20 * (v' - 1) <= binmax).
Proof.
  induction fuel; intros binmax v B W H P; [lia|].
  remember (S fuel) as f. cbn [rescale]. subst f. unfold mul32 at 1. rewrite w32_small by lia.
  destruct (N.leb_spec (20 * v) binmax) as [L|L].
  - unfold add32. rewrite w32_small by lia. destruct fuel as [|fuel].
    + cbn [rescale]. unfold mul32. rewrite w32_small by lia.
      destruct (N.leb_spec (20 * (v + 1)) binmax); [lia|]. exists (v + 1).
      split; [reflexivity|]. lia.
    + destruct (IHfuel binmax (v + 1) B ltac:(lia) ltac:(lia) ltac:(lia)) as (v' & E & A1 & A2 & A3).
      exists v'. split; [exact E|]. split; [exact A1|]. split; [lia|]. intros _.
      destruct (N.eq_dec (v + 1) v') as [<-|]; lia.
  - exists v. split; [reflexivity|]. lia.
Qed.

Lemma stars_ok : forall bins v binmax i j, (i <= 20)%nat -> binmax < 20 * v < 2 ^ 32 ->
  (forall k, nth k bins 0 <= binmax) -> (j < length bins)%nat ->
  nth j (stars bins v i) false = (N.of_nat i <=? nth j bins 0 / v).
Proof.
  intros bins v binmax i j Hi Hv Hb Hj. unfold stars.
  rewrite (nth_indep _ false (mul32 (N.of_nat i) v <=? 0)) by (rewrite map_length; exact Hj).
  rewrite (map_nth (fun b => mul32 (N.of_nat i) v <=? b) bins 0 j).
  unfold mul32. assert (N.of_nat i * v <= 20 * v) by (apply N.mul_le_mono_r; lia).
  rewrite w32_small by lia.
  apply Bool.eq_iff_eq_true. rewrite !N.leb_le. rewrite N.mul_comm.
  split; intro X.
  - apply N.div_le_lower_bound; lia.
  - apply N.le_trans with (v * (nth j bins 0 / v)); [apply N.mul_le_mono_l; exact X|].
    apply N.mul_div_le. lia.
Qed.
