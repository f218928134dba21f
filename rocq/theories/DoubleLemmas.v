(** Ordering and rounding facts about doubles, via real numbers. *)
From Coq Require Import ZArith Bool Reals Lra Lia.
From Flocq Require Import Core IEEE754.BinarySingleNaN.
From Verif Require Import DoubleModel.
Open Scope R_scope.

Definition big : R := bpow radix2 1024.
Arguments big : simpl never.

(** The value of a double in the reals, infinities beyond every finite one. *)
Definition val (x : double) : R :=
  match x with
  | B754_infinity s => if s then - big else big
  | _ => B2R x
  end.

Lemma val_finite : forall x, is_finite x = true -> val x = B2R x.
Proof. intros [s|s| |s m e H] F; try discriminate; reflexivity. Qed.

Lemma val_bound : forall x : double, is_finite x = true ->
  - big < B2R x < big.
Proof.
  intros x F. pose proof (abs_B2R_lt_emax 53 1024 x) as H.
  apply Rabs_lt_inv in H. exact H.
Qed.

Lemma bpow1024_pos : 0 < big.
Proof. apply bpow_gt_0. Qed.

Lemma finite_or : forall x : double, disnan x = false ->
  is_finite x = true \/ x = B754_infinity true \/ x = B754_infinity false.
Proof. intros [s|[|]| |s m e H] N; try discriminate; auto. Qed.

Lemma dlt_val : forall x y, disnan x = false -> disnan y = false ->
  (dlt x y = true <-> val x < val y).
Proof.
  intros x y Nx Ny. pose proof bpow1024_pos as BP.
  destruct (finite_or x Nx) as [Fx|[->| ->]]; destruct (finite_or y Ny) as [Fy|[->| ->]].
  - rewrite !val_finite by assumption. unfold dlt. rewrite Bltb_correct by assumption.
    case Rlt_bool_spec; intro H; split; intro; try assumption; try reflexivity; try discriminate; lra.
  - rewrite (val_finite x) by assumption. pose proof (val_bound x Fx). cbn [val].
    destruct x as [s|s| |[] m e H0]; try discriminate; cbn; split; intro; try discriminate; cbn in *; try lra.
  - rewrite (val_finite x) by assumption. pose proof (val_bound x Fx). cbn [val].
    destruct x as [s|s| |[] m e H0]; try discriminate; cbn; split; intro; try reflexivity; cbn in *; try lra.
  - rewrite (val_finite y) by assumption. pose proof (val_bound y Fy). cbn [val].
    destruct y as [s|s| |[] m e H0]; try discriminate; cbn; split; intro; try reflexivity; cbn in *; try lra.
  - cbn. split; intro; try discriminate; lra.
  - cbn. split; intro; try reflexivity; lra.
  - rewrite (val_finite y) by assumption. pose proof (val_bound y Fy). cbn [val].
    destruct y as [s|s| |[] m e H0]; try discriminate; cbn; split; intro; try discriminate; cbn in *; try lra.
  - cbn. split; intro; try discriminate; lra.
  - cbn. split; intro; try discriminate; lra.
Qed.

Lemma dle_val : forall x y, disnan x = false -> disnan y = false ->
  (dle x y = true <-> val x <= val y).
Proof.
  intros x y Nx Ny. pose proof bpow1024_pos as BP.
  destruct (finite_or x Nx) as [Fx|[->| ->]]; destruct (finite_or y Ny) as [Fy|[->| ->]].
  - rewrite !val_finite by assumption. unfold dle. rewrite Bleb_correct by assumption.
    case Rle_bool_spec; intro H; split; intro; try assumption; try reflexivity; try discriminate; lra.
  - rewrite (val_finite x) by assumption. pose proof (val_bound x Fx). cbn [val].
    destruct x as [s|s| |[] m e H0]; try discriminate; cbn; split; intro; try discriminate; cbn in *; try lra.
  - rewrite (val_finite x) by assumption. pose proof (val_bound x Fx). cbn [val].
    destruct x as [s|s| |[] m e H0]; try discriminate; cbn; split; intro; try reflexivity; cbn in *; try lra.
  - rewrite (val_finite y) by assumption. pose proof (val_bound y Fy). cbn [val].
    destruct y as [s|s| |[] m e H0]; try discriminate; cbn; split; intro; try reflexivity; cbn in *; try lra.
  - cbn. split; intro; try reflexivity; lra.
  - cbn. split; intro; try reflexivity; lra.
  - rewrite (val_finite y) by assumption. pose proof (val_bound y Fy). cbn [val].
    destruct y as [s|s| |[] m e H0]; try discriminate; cbn; split; intro; try discriminate; cbn in *; try lra.
  - cbn. split; intro; try discriminate; lra.
  - cbn. split; intro; try reflexivity; lra.
Qed.

Lemma dlt_nan : forall x y, dlt x y = true -> disnan x = false /\ disnan y = false.
Proof. intros [s|[|]| |[|] m e H] [s'|[|]| |[|] m' e' H']; cbn; intro; try discriminate; auto. Qed.
Lemma dle_nan : forall x y, dle x y = true -> disnan x = false /\ disnan y = false.
Proof. intros [s|[|]| |[|] m e H] [s'|[|]| |[|] m' e' H']; cbn; intro; try discriminate; auto. Qed.

Lemma deq_val : forall x y, disnan x = false -> disnan y = false ->
  (deq x y = true <-> val x = val y).
Proof.
  intros x y Nx Ny.
  assert (E : deq x y = dle x y && dle y x).
  { unfold deq, dle, Beqb, Bleb, SpecFloat.SFeqb, SpecFloat.SFleb.
    change (SpecFloat.SFcompare (B2SF y) (B2SF x)) with (Bcompare y x).
    change (SpecFloat.SFcompare (B2SF x) (B2SF y)) with (Bcompare x y).
    rewrite (Bcompare_swap _ _ x y). destruct (Bcompare x y) as [[]|]; reflexivity. }
  rewrite E, andb_true_iff, (dle_val x y), (dle_val y x) by assumption. lra.
Qed.

Lemma val_zero : val dzero = 0.
Proof. reflexivity. Qed.
Lemma val_half : val dhalf = / 2.
Proof. cbn. unfold F2R. cbn. lra. Qed.
Lemma val_one : val done = 1.
Proof. cbn. unfold F2R. cbn. lra. Qed.

Definition rnd := round radix2 (SpecFloat.fexp 53 1024) (round_mode mode_NE).

#[global] Instance fexp_valid : Valid_exp (SpecFloat.fexp 53 1024).
Proof. apply (fexp_correct 53 1024 prec_ok). Qed.

Lemma rnd_le : forall x y, x <= y -> rnd x <= rnd y.
Proof.
  intros x y H. unfold rnd. apply round_le; auto with typeclass_instances.
Qed.

Lemma rnd_double : forall x : double, rnd (B2R x) = B2R x.
Proof.
  intro x. unfold rnd. apply round_generic; auto with typeclass_instances.
  apply generic_format_B2R.
Qed.

(** Subtraction: the rounded difference, or an overflow in the direction of [x]. *)
Lemma dsub_val : forall x y, is_finite x = true -> is_finite y = true ->
  disnan (dsub x y) = false /\
  ((is_finite (dsub x y) = true /\ val (dsub x y) = rnd (B2R x - B2R y)) \/
   (Rabs (rnd (B2R x - B2R y)) >= big /\
    Bsign x = negb (Bsign y) /\ dsub x y = B754_infinity (Bsign x))).
Proof.
  intros x y Fx Fy. pose proof (Bminus_correct 53 1024 prec_ok emax_ok mode_NE x y Fx Fy) as H.
  fold rnd in H. fold (dsub x y) in H.
  revert H. case Rlt_bool_spec; intros B H.
  - destruct H as (H1 & H2 & H3). split.
    + destruct (dsub x y); try discriminate; reflexivity.
    + left. split; [assumption|]. rewrite val_finite by assumption. exact H1.
  - destruct H as (H1 & H2).
    assert (dsub x y = B754_infinity (Bsign x)) as E.
    { destruct (dsub x y) as [s|s| |s m e h]; cbn in H1; unfold binary_overflow in H1;
      cbn in H1; try discriminate. now inversion H1. }
    rewrite E. split; [reflexivity|]. right. repeat split.
    + fold rnd in B. unfold big. lra.
    + exact H2.
Qed.

Lemma rnd_opp_half : rnd (- / 2) = - / 2.
Proof.
  replace (- / 2) with (B2R (Bopp dhalf)) by (cbn; unfold F2R; cbn; lra).
  apply rnd_double.
Qed.
Lemma rnd_half : rnd (/ 2) = / 2.
Proof. rewrite <- val_half. apply (rnd_double dhalf). Qed.
Lemma rnd_zero : rnd 0 = 0.
Proof. apply (rnd_double dzero). Qed.

Lemma dhalf_fin : B2R dhalf = / 2.
Proof. rewrite <- val_half. reflexivity. Qed.

Lemma val_dabs : forall x, disnan x = false -> disnan (dabs x) = false /\ val (dabs x) = Rabs (val x).
Proof.
  intros x N. destruct (finite_or x N) as [F|[->| ->]].
  - split; [destruct x; try discriminate; reflexivity|].
    rewrite !val_finite by (unfold dabs; rewrite ?is_finite_Babs; assumption).
    unfold dabs. apply B2R_Babs.
  - split; [reflexivity|]. cbn. pose proof bpow1024_pos. rewrite Rabs_left; lra.
  - split; [reflexivity|]. cbn. pose proof bpow1024_pos. rewrite Rabs_right; lra.
Qed.

Lemma big_ge_1 : 1 <= big.
Proof. unfold big. change 1 with (bpow radix2 0). apply bpow_le. lia. Qed.

(** Subtracting from a half a non-negative double. *)
Lemma half_minus : forall x, disnan x = false -> 0 <= val x ->
  disnan (dsub dhalf x) = false /\ val (dsub dhalf x) <= / 2 /\
  (/ 2 <= val x -> val (dsub dhalf x) <= 0).
Proof.
  intros x N P. pose proof big_ge_1. destruct (finite_or x N) as [F|[->| ->]].
  - destruct (dsub_val dhalf x eq_refl F) as (Nn & [[F1 V]|(_ & S & E)]).
    + split; [exact Nn|]. rewrite V, dhalf_fin. rewrite val_finite in * by exact F. split.
      * apply Rle_trans with (rnd (/ 2)); [apply rnd_le; lra|rewrite rnd_half; lra].
      * intro Q. rewrite <- rnd_zero. apply rnd_le. lra.
    + cbn in S. exfalso. rewrite val_finite in P by exact F.
      destruct x as [s|s| |s m e h]; try discriminate; cbn in S.
      assert (s = true) by (destruct s; auto). subst s. cbn in P.
      pose proof (F2R_lt_0 radix2 (Float radix2 (Z.neg m) e) eq_refl). lra.
  - cbn in P. lra.
  - cbn. repeat split; lra.
Qed.

(** [0.5 - fabs(p - 0.5)] never exceeds a half, and is not positive when [p] is not. *)
Lemma tail_bounds : forall p, disnan p = false ->
  let t := dsub dhalf (dabs (dsub p dhalf)) in
  disnan t = false /\ val t <= / 2 /\ (val p <= 0 -> val t <= 0).
Proof.
  intros p N. cbv zeta. pose proof big_ge_1.
  assert (D : disnan (dsub p dhalf) = false /\ (val p <= 0 -> / 2 <= Rabs (val (dsub p dhalf)))).
  { destruct (finite_or p N) as [F|[->| ->]].
    - destruct (dsub_val p dhalf F eq_refl) as (Nn & [[F1 V]|(_ & S & E)]).
      + split; [exact Nn|]. intro Q. rewrite V, dhalf_fin. rewrite val_finite in Q by exact F.
        assert (rnd (B2R p - / 2) <= - / 2).
        { rewrite <- rnd_opp_half. apply rnd_le. lra. }
        rewrite Rabs_left1 by lra. lra.
      + split; [exact Nn|]. intro Q. rewrite E. cbn in S. rewrite S. cbn [val].
        rewrite Rabs_left1; lra.
    - split; [reflexivity|]. intro. cbn. rewrite Rabs_left1; lra.
    - split; [reflexivity|]. cbn. lra. }
  destruct D as [D1 D2]. destruct (val_dabs _ D1) as [A1 A2].
  destruct (half_minus (dabs (dsub p dhalf)) A1) as (T1 & T2 & T3).
  { rewrite A2. apply Rabs_pos. }
  repeat split; try assumption. intro Q. apply T3. rewrite A2. apply D2, Q.
Qed.
