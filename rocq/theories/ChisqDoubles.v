(** The rounding error of Pearson's statistic. *)
From Coq Require Import ZArith Reals Lra Lia List Bool.
From Flocq Require Import Core IEEE754.BinarySingleNaN.
From Verif Require Import ChisqModel ChisqSpec ChisqLemmas DoubleLemmas DoubleLemmas2 DoubleLemmas3 SphereLemmas.
Import ListNotations.
Open Scope R_scope.

Definition u53 : R := / 9007199254740992.
Lemma u53_pos : 0 < u53 < 1.
Proof. unfold u53. split; [apply Rinv_0_lt_compat; lra|]. rewrite <- Rinv_1. apply Rinv_lt_contravar; lra. Qed.
(** [y] is [x] but for [n] roundings *)
Definition within (n : nat) (x y : R) : Prop := x * (1 - u53) ^ n <= y <= x * (1 + u53) ^ n.
Lemma down_pos n : 0 < (1 - u53) ^ n <= 1.
Proof. pose proof u53_pos. split; [apply pow_lt; lra|]. apply Rle_trans with (1 ^ n); [apply pow_incr; lra|rewrite pow1; lra]. Qed.
Lemma up_pos n : 1 <= (1 + u53) ^ n.
Proof. pose proof u53_pos. apply pow_R1_Rle. lra. Qed.
Lemma within_weaken n m x y : 0 <= x -> (n <= m)%nat -> within n x y -> within m x y.
Proof.
  intros X L (H1 & H2). replace m with (n + (m - n))%nat by lia. unfold within. rewrite !pow_add.
  pose proof (down_pos n). pose proof (down_pos (m - n)). pose proof (up_pos n). pose proof (up_pos (m - n)).
  set (a := (1 - u53) ^ n) in *. set (b := (1 - u53) ^ (m - n)) in *. set (c := (1 + u53) ^ n) in *. set (d := (1 + u53) ^ (m - n)) in *.
  clearbody a b c d. split.
  - apply Rle_trans with (x * a); [|exact H1]. apply Rmult_le_compat_l; [exact X|]. nra.
  - apply Rle_trans with (x * c); [exact H2|]. apply Rmult_le_compat_l; [exact X|]. nra.
Qed.
Lemma within_nonneg n x y : 0 <= x -> within n x y -> 0 <= y.
Proof. intros X (H & _). pose proof (down_pos n). apply Rle_trans with (2 := H). apply Rmult_le_pos; lra. Qed.
Lemma within_add n x y x' y' : within n x y -> within n x' y' -> within n (x + x') (y + y').
Proof. unfold within. lra. Qed.
Lemma within_scale n x y c : 0 <= c -> within n x y -> within n (x * c) (y * c).
Proof. intros C (H1 & H2). unfold within. split; [replace (x * c * (1 - u53) ^ n) with (x * (1 - u53) ^ n * c) by ring|replace (x * c * (1 + u53) ^ n) with (x * (1 + u53) ^ n * c) by ring]; now apply Rmult_le_compat_r. Qed.

(** zero, or not tiny *)
Definition nice (x : R) : Prop := x = 0 \/ bpow radix2 (-900) <= x.
Lemma nice_nonneg x : nice x -> 0 <= x.
Proof. intros [->|H]; [lra|]. pose proof (bpow_gt_0 radix2 (-900)). lra. Qed.
Lemma nice_rnd x : nice x -> nice (rnd x).
Proof.
  intros [->|H]; [left; apply rnd_zero|]. right. apply Rle_trans with (rnd (bpow radix2 (-900))); [|now apply rnd_le].
  rewrite rnd_bpow by lia. lra.
Qed.
Lemma nice_add x y : nice x -> nice y -> nice (x + y).
Proof. intros [->|X] [->|Y]; [left; ring|right; lra|right; lra|right]. pose proof (bpow_gt_0 radix2 (-900)). lra. Qed.
Lemma within_rnd n x y : 0 <= x -> nice y -> within n x y -> within (S n) x (rnd y).
Proof.
  intros X Ny H. pose proof u53_pos as U. destruct Ny as [->|Ny].
  - rewrite rnd_zero. destruct H as (H1 & H2). pose proof (down_pos n). pose proof (up_pos n). unfold within. cbn [pow].
    assert (x = 0) as -> by nra. lra.
  - assert (B : bpow radix2 (-1000) <= y) by (apply Rle_trans with (2 := Ny); apply bpow_le; lia).
    pose proof (rnd_rel y B) as (R1 & R2). fold u53 in R1, R2. destruct H as (H1 & H2). unfold within. cbn [pow]. split.
    + apply Rle_trans with (2 := R1). replace (x * ((1 - u53) * (1 - u53) ^ n)) with (x * (1 - u53) ^ n * (1 - u53)) by ring. apply Rmult_le_compat_r; lra.
    + apply Rle_trans with (1 := R2). replace (x * ((1 + u53) * (1 + u53) ^ n)) with (x * (1 + u53) ^ n * (1 + u53)) by ring. apply Rmult_le_compat_r; lra.
Qed.

(** ** Operations with results below 2^900 *)
Lemma rnd_tame x : Rabs x <= bpow radix2 900 -> Rabs (rnd x) < bpow radix2 1024.
Proof.
  intro H. apply Rle_lt_trans with (bpow radix2 900); [|apply bpow_lt; lia].
  unfold rnd. apply abs_round_le_generic; auto with typeclass_instances.
  apply generic_format_bpow. unfold SpecFloat.fexp. cbn. lia.
Qed.
Lemma dmul_tame (x y : double) : is_finite x = true -> is_finite y = true -> Rabs (B2R x * B2R y) <= bpow radix2 900 ->
  is_finite (dmul x y) = true /\ B2R (dmul x y) = rnd (B2R x * B2R y).
Proof.
  intros Fx Fy M. pose proof (Bmult_correct 53 1024 prec_ok emax_ok mode_NE x y) as D. fold (dmul x y) in D.
  change (round radix2 (SpecFloat.fexp 53 1024) (round_mode mode_NE) (B2R x * B2R y)) with (rnd (B2R x * B2R y)) in D.
  rewrite Rlt_bool_true in D by (apply rnd_tame, M). destruct D as (D1 & D2 & _). rewrite Fx, Fy in D2. auto.
Qed.
Lemma dadd_tame (x y : double) : is_finite x = true -> is_finite y = true -> Rabs (B2R x + B2R y) <= bpow radix2 900 ->
  is_finite (dadd x y) = true /\ B2R (dadd x y) = rnd (B2R x + B2R y).
Proof.
  intros Fx Fy M. pose proof (Bplus_correct 53 1024 prec_ok emax_ok mode_NE x y Fx Fy) as D. fold (dadd x y) in D.
  change (round radix2 (SpecFloat.fexp 53 1024) (round_mode mode_NE) (B2R x + B2R y)) with (rnd (B2R x + B2R y)) in D.
  rewrite Rlt_bool_true in D by (apply rnd_tame, M). destruct D as (D1 & D2 & _). auto.
Qed.
Lemma dsub_tame (x y : double) : is_finite x = true -> is_finite y = true -> Rabs (B2R x - B2R y) <= bpow radix2 900 ->
  is_finite (dsub x y) = true /\ B2R (dsub x y) = rnd (B2R x - B2R y).
Proof.
  intros Fx Fy M. pose proof (Bminus_correct 53 1024 prec_ok emax_ok mode_NE x y Fx Fy) as D. fold (dsub x y) in D.
  change (round radix2 (SpecFloat.fexp 53 1024) (round_mode mode_NE) (B2R x - B2R y)) with (rnd (B2R x - B2R y)) in D.
  rewrite Rlt_bool_true in D by (apply rnd_tame, M). destruct D as (D1 & D2 & _). auto.
Qed.
Lemma ddiv_tame (x y : double) : is_finite x = true -> B2R y <> 0 -> Rabs (B2R x / B2R y) <= bpow radix2 900 ->
  is_finite (ddiv x y) = true /\ B2R (ddiv x y) = rnd (B2R x / B2R y).
Proof. intros Fx Ny M. apply ddiv_val; auto. apply rnd_tame, M. Qed.

(** ** One bin *)
(** a count of at most 2^32 *)
Definition count_ok (o : double) : Prop := is_finite o = true /\ exists n, (0 <= n <= 2 ^ 32)%Z /\ B2R o = IZR n.
(** an expected value between 2^-100 and 2^40 *)
Definition expect_ok (e : double) : Prop := is_finite e = true /\ / 2 ^ 100 <= B2R e <= 2 ^ 40.
Lemma pow_bpow (n : nat) : 2 ^ n = bpow radix2 (Z.of_nat n).
Proof.
  induction n as [|n IH]; [reflexivity|]. rewrite Nat2Z.inj_succ, <- Z.add_1_l, bpow_plus, <- IH. reflexivity.
Qed.
Lemma two100 : / 2 ^ 100 = bpow radix2 (-100).
Proof. rewrite pow_bpow. change (-100)%Z with (- Z.of_nat 100)%Z. rewrite bpow_opp. reflexivity. Qed.
Lemma gap o e : count_ok o -> expect_ok e -> Rabs (B2R o - B2R e) = 0 \/ bpow radix2 (-152) <= Rabs (B2R o - B2R e).
Proof.
  intros (Fo & n & N & Eo) (Fe & E). pose proof (generic_format_B2R 53 1024 e) as G.
  set (x := B2R e) in *. assert (P : 0 < x) by (rewrite two100 in E; pose proof (bpow_gt_0 radix2 (-100)); lra).
  assert (M : (-100 < mag radix2 x)%Z) by (apply mag_gt_bpow; rewrite Rabs_pos_eq, <- two100; lra).
  unfold generic_format, F2R in G. cbn [Fnum Fexp] in G. set (c := cexp radix2 (SpecFloat.fexp 53 1024) x) in *.
  assert (C : (-152 <= c)%Z) by (unfold c, cexp, SpecFloat.fexp, SpecFloat.emin; lia).
  set (m := Ztrunc _) in G. clearbody m c.
  assert (X : x = IZR (m * 2 ^ (c + 152)) * bpow radix2 (-152)).
  { rewrite G, mult_IZR. change 2%Z with (radix_val radix2) at 1. rewrite IZR_Zpower by lia. rewrite Rmult_assoc, <- bpow_plus. f_equal. f_equal. lia. }
  assert (O : B2R o = IZR (n * 2 ^ 152) * bpow radix2 (-152)).
  { rewrite Eo, mult_IZR. change 2%Z with (radix_val radix2) at 1. rewrite IZR_Zpower by lia. rewrite Rmult_assoc, <- bpow_plus. replace (bpow radix2 (152 + -152)) with 1 by reflexivity. ring. }
  rewrite O, X, <- Rmult_minus_distr_r, <- minus_IZR, Rabs_mult, <- abs_IZR, (Rabs_pos_eq (bpow _ _)) by apply bpow_ge_0.
  set (k := (n * 2 ^ 152 - m * 2 ^ (c + 152))%Z). destruct (Z.eq_dec k 0) as [->|K]; [left; cbn; ring|right].
  assert (1 <= IZR (Z.abs k)) by (apply IZR_le; lia). pose proof (bpow_gt_0 radix2 (-152)). nra.
Qed.
Lemma bin_ok o e : count_ok o -> expect_ok e ->
  let t := ddiv (dmul (dsub o e) (dsub o e)) e in
  is_finite t = true /\ nice (B2R t) /\ within 4 ((B2R o - B2R e) ^ 2 / B2R e) (B2R t) /\ (B2R o - B2R e) ^ 2 / B2R e <= bpow radix2 190.
Proof.
  intros Ho He. pose proof (gap o e Ho He) as Gp. destruct Ho as (Fo & n & N & Eo). destruct He as (Fe & E1 & E2).
  rewrite two100 in E1. assert (E40 : B2R e <= bpow radix2 40) by (rewrite pow_bpow in E2; exact E2). clear E2.
  assert (P : 0 < B2R e) by (pose proof (bpow_gt_0 radix2 (-100)); lra).
  assert (N0 : 0 <= IZR n <= bpow radix2 40).
  { split; [apply IZR_le; lia|]. apply Rle_trans with (IZR (2 ^ 32)); [apply IZR_le; lia|]. change (IZR (2 ^ 32)) with (bpow radix2 32). apply bpow_le. lia. }
  assert (AB : Rabs (B2R o - B2R e) <= bpow radix2 40) by (apply Rabs_le; rewrite Eo; lra).
  assert (LE : forall a b : Z, (a <= b)%Z -> bpow radix2 a <= bpow radix2 b) by (intros; now apply bpow_le).
  destruct (dsub_tame o e Fo Fe) as (Fd & Vd); [apply Rle_trans with (1 := AB), LE; lia|].
  set (d := dsub o e) in *. set (D := B2R o - B2R e) in *.
  assert (AD : Rabs (B2R d) = rnd (Rabs D)) by (rewrite Vd; apply rnd_abs).
  assert (NA : nice (Rabs D)) by (destruct Gp as [->|G]; [now left|right; apply Rle_trans with (2 := G), LE; lia]).
  assert (W1 : within 1 (Rabs D) (Rabs (B2R d))).
  { rewrite AD. apply within_rnd; [apply Rabs_pos|exact NA|]. unfold within. cbn [pow]. lra. }
  assert (Ub : Rabs (B2R d) <= bpow radix2 40).
  { rewrite AD. rewrite <- (rnd_bpow 40) by lia. now apply rnd_le. }
  assert (Lb : Rabs (B2R d) = 0 \/ bpow radix2 (-152) <= Rabs (B2R d)).
  { rewrite AD. destruct Gp as [->|G]; [left; apply rnd_zero|right]. rewrite <- (rnd_bpow (-152)) by lia. now apply rnd_le. }
  assert (SQ : B2R d * B2R d = Rabs (B2R d) * Rabs (B2R d)) by (rewrite <- Rabs_mult, Rabs_pos_eq; [reflexivity|apply Rle_0_sqr]).
  assert (DQ : D ^ 2 = Rabs D * Rabs D) by (rewrite <- Rabs_mult, Rabs_pos_eq; [ring|apply Rle_0_sqr]).
  set (a := Rabs (B2R d)) in *. set (b := Rabs D) in *.
  assert (A0 : 0 <= a) by apply Rabs_pos. assert (B0 : 0 <= b) by apply Rabs_pos.
  assert (W2 : within 2 (D ^ 2) (B2R d * B2R d)).
  { rewrite SQ, DQ. destruct W1 as (w1 & w2). pose proof u53_pos. cbn [pow] in w1, w2. rewrite !Rmult_1_r in w1, w2. unfold within. cbn [pow]. split.
    - replace (b * b * _) with ((b * (1 - u53)) * (b * (1 - u53))) by ring. apply Rmult_le_compat; auto; apply Rmult_le_pos; lra.
    - replace (b * b * _) with ((b * (1 + u53)) * (b * (1 + u53))) by ring. apply Rmult_le_compat; auto. }
  assert (UQ : B2R d * B2R d <= bpow radix2 80).
  { rewrite SQ. change 80%Z with (40 + 40)%Z. rewrite bpow_plus. apply Rmult_le_compat; auto. }
  assert (LQ : B2R d * B2R d = 0 \/ bpow radix2 (-304) <= B2R d * B2R d).
  { rewrite SQ. destruct Lb as [->|Lb]; [left; ring|right]. change (-304)%Z with (-152 + -152)%Z. rewrite bpow_plus. apply Rmult_le_compat; auto; apply bpow_ge_0. }
  assert (Q0 : 0 <= B2R d * B2R d) by (rewrite SQ; nra).
  destruct (dmul_tame d d Fd Fd) as (Fs & Vs); [rewrite Rabs_pos_eq by exact Q0; apply Rle_trans with (1 := UQ), LE; lia|].
  set (s := dmul d d) in *.
  assert (W3 : within 3 (D ^ 2) (B2R s)).
  { rewrite Vs. apply within_rnd; [rewrite DQ; nra| |exact W2]. destruct LQ as [->|L]; [now left|right; apply Rle_trans with (2 := L), LE; lia]. }
  assert (Us : B2R s <= bpow radix2 80) by (rewrite Vs, <- (rnd_bpow 80) by lia; now apply rnd_le).
  assert (Ls : B2R s = 0 \/ bpow radix2 (-304) <= B2R s).
  { rewrite Vs. destruct LQ as [->|L]; [left; apply rnd_zero|right]. rewrite <- (rnd_bpow (-304)) by lia. now apply rnd_le. }
  assert (S0 : 0 <= B2R s) by (rewrite Vs, <- rnd_zero; now apply rnd_le).
  assert (I1 : / B2R e <= bpow radix2 100).
  { change 100%Z with (- -100)%Z. rewrite bpow_opp. apply Rinv_le; [apply bpow_gt_0|exact E1]. }
  assert (I2 : bpow radix2 (-40) <= / B2R e) by (change (-40)%Z with (- (40))%Z; rewrite bpow_opp; apply Rinv_le; auto).
  assert (I0 : 0 < / B2R e) by (now apply Rinv_0_lt_compat).
  assert (UT : B2R s / B2R e <= bpow radix2 180).
  { change 180%Z with (80 + 100)%Z. rewrite bpow_plus. apply Rmult_le_compat; lra. }
  assert (LT : nice (B2R s / B2R e)).
  { destruct Ls as [->|L]; [left; unfold Rdiv; ring|right]. apply Rle_trans with (bpow radix2 (-304) * bpow radix2 (-40)); [rewrite <- bpow_plus; apply LE; lia|].
    apply Rmult_le_compat; auto; apply bpow_ge_0. }
  destruct (ddiv_tame s e Fs) as (Ft & Vt); [lra|rewrite Rabs_pos_eq by (apply nice_nonneg, LT); apply Rle_trans with (1 := UT), LE; lia|].
  cbv zeta. split; [exact Ft|]. split; [rewrite Vt; apply nice_rnd, LT|]. split.
  - rewrite Vt. apply within_rnd; [apply Rmult_le_pos; [rewrite DQ; nra|lra]|exact LT|]. apply within_scale; [lra|exact W3].
  - rewrite DQ. apply Rle_trans with (bpow radix2 40 * bpow radix2 40 * bpow radix2 100); [|rewrite <- !bpow_plus; apply LE; lia].
    apply Rmult_le_compat; [apply Rmult_le_pos; exact B0|lra|apply Rmult_le_compat; auto|lra].
Qed.
Lemma pow_le_3 n : (Z.of_nat n <= 2 ^ 53)%Z -> (1 + u53) ^ n <= 3.
Proof.
  intro H. apply Rle_trans with (exp 1); [|exact exp_le_3].
  assert (E : forall n, (1 + u53) ^ n <= exp (INR n * u53)).
  { clear. intro n. pose proof u53_pos. induction n as [|n IH]; [cbn; rewrite Rmult_0_l, exp_0; lra|].
    rewrite S_INR, Rmult_plus_distr_r, Rmult_1_l, exp_plus. cbn [pow]. rewrite Rmult_comm.
    apply Rmult_le_compat; auto; [apply pow_le; lra|lra|]. pose proof (exp_ineq1 u53). lra. }
  apply Rle_trans with (1 := E n). assert (L : INR n * u53 <= 1).
  { apply Rmult_le_reg_r with 9007199254740992; [lra|]. unfold u53. rewrite Rmult_assoc, Rinv_l by lra. rewrite INR_IZR_INZ.
    apply IZR_le in H. change (IZR (2 ^ 53)) with 9007199254740992 in H. lra. }
  destruct (Req_dec (INR n * u53) 1) as [->|Ne]; [lra|]. apply Rlt_le, exp_increasing. lra.
Qed.
(** ** The sum *)
Lemma chisq_double dpow dexp : forall bins, (Z.of_nat (length bins) <= 2 ^ 31)%Z ->
  Forall (fun b : double * double => count_ok (fst b) /\ expect_ok (snd b)) bins ->
  let X := pearson (map (fun b => (B2R (fst b), B2R (snd b))) bins) in
  let S := chisq_fold (doubles dpow dexp) bins in
  is_finite (S : double) = true /\ nice (B2R (S : double)) /\ within (length bins + 4) X (B2R (S : double)) /\ 0 <= X <= INR (length bins) * bpow radix2 190.
Proof.
  intro bins. induction bins as [|b bins IH] using rev_ind; intros L F.
  - cbv zeta. cbn. split; [reflexivity|]. split; [now left|]. split; [unfold within; lra|lra].
  - rewrite app_length in *. cbn [length] in *. apply Forall_app in F. destruct F as (F1 & F2). inversion F2 as [|? ? (Ho & He) _]; subst.
    specialize (IH ltac:(lia) F1). cbv zeta in *. destruct IH as (Fs & Ns & Ws & X0 & X1).
    unfold chisq_fold. rewrite fold_left_app. cbn [fold_left]. fold (chisq_fold (doubles dpow dexp) bins).
    set (s := chisq_fold (doubles dpow dexp) bins) in *. change (num (doubles dpow dexp)) with double in *.
    destruct b as (o, e). cbn [fst snd] in *. pose proof (bin_ok o e Ho He) as (Ft & Nt & Wt & Tb).
    change (delchisq (doubles dpow dexp) o e) with (ddiv (dmul (dsub o e) (dsub o e)) e).
    set (t := ddiv _ _) in *. change (nadd (doubles dpow dexp) s t) with (dadd s t).
    rewrite map_app. cbn [map fst snd]. unfold pearson in *. rewrite total_app. cbn [total fold_right fst snd].
    set (X := total _ _) in *. set (T := (B2R o - B2R e) ^ 2 / B2R e) in *. rewrite Rplus_0_r.
    assert (T0 : 0 <= T). { unfold T. apply Rmult_le_pos; [apply pow2_ge_0|]. apply Rlt_le, Rinv_0_lt_compat. destruct He as (_ & He & _). rewrite two100 in He. pose proof (bpow_gt_0 radix2 (-100)). lra. }
    assert (W : within (length bins + 4) (X + T) (B2R s + B2R t)).
    { apply within_add; [exact Ws|]. apply within_weaken with 4%nat; auto; lia. }
    assert (XT : 0 <= X + T <= INR (length bins + 1) * bpow radix2 190) by (rewrite plus_INR; cbn [INR]; lra).
    assert (N : nice (B2R s + B2R t)) by now apply nice_add.
    assert (B : Rabs (B2R s + B2R t) <= bpow radix2 900).
    { rewrite Rabs_pos_eq by now apply nice_nonneg. destruct W as (_ & W).
      pose proof (pow_le_3 (length bins + 4) ltac:(lia)) as U. pose proof (up_pos (length bins + 4)).
      apply Rle_trans with (1 := W). apply Rle_trans with ((X + T) * bpow radix2 2); [apply Rmult_le_compat_l; [lra|]; change (bpow radix2 2) with 4; lra|].
      apply Rle_trans with (bpow radix2 32 * bpow radix2 190 * bpow radix2 2); [|rewrite <- !bpow_plus; apply bpow_le; lia].
      apply Rmult_le_compat_r; [apply bpow_ge_0|]. apply Rle_trans with (1 := proj2 XT). apply Rmult_le_compat_r; [apply bpow_ge_0|].
      rewrite INR_IZR_INZ. change (bpow radix2 32) with (IZR 4294967296). apply IZR_le. lia. }
    destruct (dadd_tame s t Fs Ft B) as (Fr & Vr).
    split; [exact Fr|]. change (nadd (doubles dpow dexp)) with dadd.
    match goal with |- nice (B2R ?r) /\ _ => change r with (dadd s t) end. rewrite Vr. split; [now apply nice_rnd|]. split; [|exact XT].
    replace (length bins + 1 + 4)%nat with (S (length bins + 4)) by lia. apply within_rnd; auto. lra.
Qed.
