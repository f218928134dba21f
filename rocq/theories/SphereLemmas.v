(** Rounding in the distances of the minimum-distance tests. *)
From Coq Require Import ZArith Bool Reals Lra Lia Psatz.
From Flocq Require Import Core Relative IEEE754.BinarySingleNaN.
From Verif Require Import SphereModel SphereSpec DoubleLemmas DoubleLemmas2 DoubleLemmas3.
Open Scope R_scope.

Definition eps : R := / 9007199254740992.
Lemma eps_pos : 0 < eps < / 1000000. Proof. unfold eps. lra. Qed.

(** Zero, or not too small. *)
Definition sane (b : Z) (x : R) : Prop := x = 0 \/ bpow radix2 b <= x.
Lemma sane_nonneg b x : sane b x -> 0 <= x.
Proof. intros [->|H]; [lra|]. pose proof (bpow_gt_0 radix2 b). lra. Qed.
Lemma sane_weaken b c x : (c <= b)%Z -> sane b x -> sane c x.
Proof. intros L [H|H]; [left; exact H|right]. apply Rle_trans with (2 := H). now apply bpow_le. Qed.
Lemma rnd_bpow b : (-1000 <= b <= 1000)%Z -> rnd (bpow radix2 b) = bpow radix2 b.
Proof.
  intro H. unfold rnd. apply round_generic; auto with typeclass_instances.
  apply generic_format_bpow. unfold SpecFloat.fexp, SpecFloat.emin. lia.
Qed.
Lemma rnd_sane b x : (-1000 <= b <= 1000)%Z -> sane b x -> sane b (rnd x).
Proof.
  intros Hb [->|H]; [left; apply rnd_zero|right]. rewrite <- (rnd_bpow b Hb). now apply rnd_le.
Qed.
Lemma rnd_rel_sane x : sane (-1000) x -> x * (1 - eps) <= rnd x <= x * (1 + eps).
Proof. intros [->|H]; [rewrite rnd_zero; lra|now apply rnd_rel]. Qed.
Lemma rnd_opp x : rnd (- x) = - rnd x.
Proof. unfold rnd. apply round_NE_opp. Qed.
Lemma rnd_abs x : Rabs (rnd x) = rnd (Rabs x).
Proof.
  unfold Rabs at 2. destruct (Rcase_abs x) as [H|H].
  - rewrite rnd_opp. rewrite Rabs_left1; [reflexivity|]. rewrite <- rnd_zero. apply rnd_le. lra.
  - rewrite Rabs_pos_eq; [reflexivity|]. rewrite <- rnd_zero. apply rnd_le. lra.
Qed.

(** Two different coordinates are not too close. *)
Lemma gap (x y : double) : bpow radix2 (-64) <= B2R x -> B2R x < B2R y -> bpow radix2 (-117) <= B2R y - B2R x.
Proof.
  intros H L.
  pose proof (succ_le_lt radix2 (SpecFloat.fexp 53 1024) (B2R x) (B2R y) (generic_format_B2R _ _ x) (generic_format_B2R _ _ y) L) as S.
  pose proof (bpow_gt_0 radix2 (-64)).
  rewrite succ_eq_pos in S by lra. rewrite ulp_neq_0 in S by lra.
  assert (bpow radix2 (-117) <= bpow radix2 (cexp radix2 (SpecFloat.fexp 53 1024) (B2R x))); [|lra].
  apply bpow_le. unfold cexp.
  pose proof (mag_ge_bpow radix2 (B2R x) (-63)) as M. rewrite Rabs_pos_eq in M by lra.
  change (-63 - 1)%Z with (-64)%Z in M. specialize (M H). unfold SpecFloat.fexp, SpecFloat.emin. lia.
Qed.
Lemma delta_sane (x y : double) : in_range x -> in_range y -> sane (-117) (Rabs (B2R x - B2R y)).
Proof.
  intros (Fx & Lx & _) (Fy & Ly & _). destruct (Rtotal_order (B2R x) (B2R y)) as [H|[H|H]].
  - right. rewrite Rabs_left by lra. pose proof (gap x y Lx H). lra.
  - left. rewrite H, Rminus_diag_eq, Rabs_R0; reflexivity.
  - right. rewrite Rabs_pos_eq by lra. now apply gap.
Qed.
Lemma two30 : bpow radix2 30 = 1073741824. Proof. reflexivity. Qed.
Lemma range_bound (x y : double) : in_range x -> in_range y -> Rabs (B2R x - B2R y) <= 1073741824.
Proof.
  intros (_ & L & U) (_ & L' & U'). rewrite two30 in *. pose proof (bpow_gt_0 radix2 (-64)).
  apply Rabs_le. lra.
Qed.
Lemma delta_val (x y : double) : in_range x -> in_range y ->
  is_finite (dsub x y) = true /\ B2R (dsub x y) = rnd (B2R x - B2R y) /\
  Rabs (B2R (dsub x y)) = rnd (Rabs (B2R x - B2R y)) /\
  Rabs (B2R (dsub x y)) <= 1073741824 /\ sane (-117) (Rabs (B2R (dsub x y))).
Proof.
  intros Hx Hy. pose proof (range_bound x y Hx Hy) as R. pose proof (delta_sane x y Hx Hy) as S.
  destruct (dsub_mod x y) as (F & V); [apply Hx|apply Hy| |].
  { apply moderate_le. apply Rabs_le_inv in R. lra. }
  rewrite V, rnd_abs. repeat split; auto.
  - rewrite <- two30, <- (rnd_bpow 30) by lia. apply rnd_le. rewrite two30. exact R.
  - apply rnd_sane; [lia|exact S].
Qed.
Lemma sq_sane b d : sane b (Rabs d) -> sane (b + b) (d * d).
Proof.
  intro H. replace (d * d) with (Rabs d * Rabs d) by (rewrite <- Rabs_mult; apply Rabs_pos_eq; nra).
  destruct H as [H|H]; [left; rewrite H; lra|right]. rewrite bpow_plus. pose proof (bpow_gt_0 radix2 b).
  apply Rmult_le_compat; lra.
Qed.
(** the rounded square of the rounded difference *)
Definition dsq (x y : double) : double := dmul (dsub x y) (dsub x y).
Definition sq (x y : double) : R := (B2R x - B2R y) * (B2R x - B2R y).
Lemma square_val (x y : double) : in_range x -> in_range y ->
  is_finite (dsq x y) = true /\ B2R (dsq x y) = rnd (B2R (dsub x y) * B2R (dsub x y)) /\
  B2R (dsq x y) <= 1152921504606846976 /\ sane (-300) (B2R (dsq x y)).
Proof.
  intros Hx Hy. destruct (delta_val x y Hx Hy) as (F & V & A & B & S).
  set (d := dsub x y) in *. apply sq_sane in S. assert (Q : B2R d * B2R d <= 1152921504606846976).
  { replace (B2R d * B2R d) with (Rabs (B2R d) * Rabs (B2R d)) by (rewrite <- Rabs_mult; apply Rabs_pos_eq; nra).
    pose proof (Rabs_pos (B2R d)). nra. }
  destruct (dmul_val d d F F) as (F' & V').
  { apply moderate_le. nra. }
  unfold dsq. fold d. rewrite V'. repeat split; auto.
  - change 1152921504606846976 with (bpow radix2 60). rewrite <- (rnd_bpow 60) by lia. apply rnd_le.
    change (bpow radix2 60) with 1152921504606846976. exact Q.
  - apply rnd_sane; [lia|]. apply (sane_weaken (-117 + -117)); [lia|exact S].
Qed.

(** ** Accumulated error: [x] within [k] roundings of [r] *)
Definition near (k : nat) (r x : R) : Prop := r * (1 - eps) ^ k <= x <= r * (1 + eps) ^ k.
Lemma pow_m k : 0 < (1 - eps) ^ k <= 1.
Proof. pose proof eps_pos. induction k; cbn [pow]; [lra|]. nra. Qed.
Lemma pow_p k : 1 <= (1 + eps) ^ k.
Proof. pose proof eps_pos. induction k; cbn [pow]; [lra|]. nra. Qed.
Lemma near_S k r x : 0 <= r -> near k r x -> near (S k) r x.
Proof.
  intros R (L & U). pose proof eps_pos. pose proof (pow_m k). pose proof (pow_p k). unfold near. cbn [pow].
  split.
  - apply Rle_trans with (2 := L). apply Rmult_le_compat_l; [exact R|]. nra.
  - apply Rle_trans with (1 := U). apply Rmult_le_compat_l; [exact R|]. nra.
Qed.
Lemma near_up k j r x : (k <= j)%nat -> 0 <= r -> near k r x -> near j r x.
Proof. intros L R H. induction L; auto. apply near_S; auto. Qed.
Lemma near_rnd k r x : 0 <= r -> sane (-1000) x -> near k r x -> near (S k) r (rnd x).
Proof.
  intros R S (L & U). pose proof eps_pos. pose proof (pow_m k). pose proof (pow_p k). apply rnd_rel_sane in S.
  unfold near. cbn [pow]. set (a := (1 - eps) ^ k) in *. set (b := (1 + eps) ^ k) in *. clearbody a b. split.
  - apply Rle_trans with (2 := proj1 S). replace (r * ((1 - eps) * a)) with (r * a * (1 - eps)) by ring.
    apply Rmult_le_compat_r; lra.
  - apply Rle_trans with (1 := proj2 S). replace (r * ((1 + eps) * b)) with (r * b * (1 + eps)) by ring.
    apply Rmult_le_compat_r; lra.
Qed.
Lemma near_add k r x s y : near k r x -> near k s y -> near k (r + s) (x + y).
Proof. unfold near. intros H J. rewrite !Rmult_plus_distr_r. lra. Qed.
Lemma near_sq r x : 0 <= r -> near 1 r x -> near 2 (r * r) (x * x).
Proof.
  intros R (L & U). pose proof eps_pos. cbn [pow] in *. rewrite Rmult_1_r in *. unfold near. cbn [pow]. rewrite !Rmult_1_r.
  assert (0 <= r * (1 - eps)) by nra. split.
  - replace (r * r * ((1 - eps) * (1 - eps))) with (r * (1 - eps) * (r * (1 - eps))) by ring. apply Rmult_le_compat; lra.
  - replace (r * r * ((1 + eps) * (1 + eps))) with (r * (1 + eps) * (r * (1 + eps))) by ring. apply Rmult_le_compat; lra.
Qed.
Lemma near_sqrt k r x : 0 <= r -> near k r x -> near k (sqrt r) (sqrt x).
Proof.
  intros R (L & U). pose proof (pow_m k) as M. pose proof (pow_p k) as P. unfold near.
  set (a := (1 - eps) ^ k) in *. set (b := (1 + eps) ^ k) in *. clearbody a b. split.
  - rewrite <- (sqrt_square a) by lra. rewrite <- sqrt_mult_alt by exact R. apply sqrt_le_1_alt.
    apply Rle_trans with (2 := L). apply Rmult_le_compat_l; [exact R|nra].
  - rewrite <- (sqrt_square b) by lra. rewrite <- sqrt_mult_alt by exact R. apply sqrt_le_1_alt.
    apply Rle_trans with (1 := U). apply Rmult_le_compat_l; [exact R|nra].
Qed.
Lemma near_9 r x : 0 <= r -> near 9 r x -> r * (1 - / 2 ^ 49) <= x <= r * (1 + / 2 ^ 49).
Proof.
  intros R (L & U). split.
  - apply Rle_trans with (2 := L). apply Rmult_le_compat_l; [exact R|]. unfold eps. cbn [pow]. lra.
  - apply Rle_trans with (1 := U). apply Rmult_le_compat_l; [exact R|]. unfold eps. cbn [pow]. lra.
Qed.
Lemma square_near (x y : double) : in_range x -> in_range y -> near 3 (sq x y) (B2R (dsq x y)).
Proof.
  intros Hx Hy. destruct (delta_val x y Hx Hy) as (F & V & A & B & S).
  destruct (square_val x y Hx Hy) as (_ & V' & _). rewrite V'. unfold sq.
  assert (Q : forall z, z * z = Rabs z * Rabs z) by (intro z; rewrite <- Rabs_mult; symmetry; apply Rabs_pos_eq; nra).
  assert (S2 := sq_sane _ _ S). apply near_rnd; [apply Rle_0_sqr| |].
  - apply (sane_weaken (-117 + -117)); [lia|exact S2].
  - rewrite (Q (B2R x - B2R y)), (Q (B2R (dsub x y))). apply near_sq; [apply Rabs_pos|]. rewrite A.
    apply near_rnd; [apply Rabs_pos| |unfold near; cbn [pow]; lra].
    apply (sane_weaken (-117)); [lia|]. now apply delta_sane.
Qed.

(** ** The sum of the squares *)
Fixpoint acc (xs ys : list double) (a : double) : double :=
  match xs, ys with x :: xs, y :: ys => acc xs ys (dadd a (dsq x y)) | _, _ => a end.
Lemma acc_step (a x y : double) B : is_finite a = true -> sane (-300) (B2R a) -> 0 <= B -> B2R a <= B -> B <= 9223372036854775808 ->
  in_range x -> in_range y ->
  is_finite (dadd a (dsq x y)) = true /\ B2R (dadd a (dsq x y)) = rnd (B2R a + B2R (dsq x y)) /\
  sane (-300) (B2R a + B2R (dsq x y)) /\ sane (-300) (B2R (dadd a (dsq x y))) /\ B2R a <= B2R (dadd a (dsq x y)).
Proof.
  intros Fa Sa B0 HB B1 Hx Hy. destruct (square_val x y Hx Hy) as (F & _ & U & S).
  pose proof (sane_nonneg _ _ Sa) as Na. pose proof (sane_nonneg _ _ S) as Ns.
  destruct (dadd_val a (dsq x y) Fa F) as (F' & V). { apply moderate_le. lra. }
  assert (SS : sane (-300) (B2R a + B2R (dsq x y))).
  { destruct Sa as [->|Sa]; [rewrite Rplus_0_l; exact S|right; lra]. }
  rewrite V. repeat split; auto.
  - apply rnd_sane; [lia|exact SS].
  - rewrite <- (rnd_double a) at 1. apply rnd_le. lra.
Qed.
(** A bound that survives the roundings. *)
Lemma acc_ok : forall xs ys (a : double) n k r, Forall in_range xs -> Forall in_range ys -> length xs = length ys ->
  (n + length xs <= 5)%nat -> is_finite a = true -> sane (-300) (B2R a) -> B2R a <= INR n * 1152921504606846976 * (1 + eps) ^ n ->
  0 <= r -> near (3 + k) r (B2R a) ->
  let b := acc xs ys a in
  is_finite b = true /\ sane (-300) (B2R b) /\ B2R a <= B2R b /\ near (3 + k + length xs) (r + sum_squares xs ys) (B2R b).
Proof.
  induction xs as [|x xs IH]; intros [|y ys] a n k r Hx Hy L Hn Fa Sa Ba R N; cbn [acc length sum_squares] in *; try discriminate.
  - repeat split; auto; try lra. rewrite Nat.add_0_r, Rplus_0_r. apply N. rewrite Nat.add_0_r, Rplus_0_r. apply N.
  - inversion Hx; inversion Hy; subst.
    assert (NB : 0 <= INR n) by apply pos_INR.
    assert (P5 : (1 + eps) ^ n <= 2).
    { pose proof eps_pos. apply Rle_trans with ((1 + eps) ^ 5); [apply Rle_pow; [lra|lia]|]. unfold eps. cbn [pow]. lra. }
    assert (N4 : INR n <= 4). { replace 4 with (INR 4) by (cbn; lra). apply le_INR. lia. }
    pose proof (pow_p n) as PP.
    assert (Q : INR n * 1152921504606846976 * (1 + eps) ^ n <= 9223372036854775808).
    { apply Rle_trans with (4 * 1152921504606846976 * 2); [|lra]. apply Rmult_le_compat; lra. }
    destruct (acc_step a x y _ Fa Sa (Rle_trans _ _ _ (sane_nonneg _ _ Sa) Ba) Ba Q H1 H5) as (F & V & SS & S' & M).
    destruct (square_val x y H1 H5) as (_ & _ & U & Ss).
    assert (R' : 0 <= sq x y) by apply Rle_0_sqr.
    destruct (IH ys (dadd a (dsq x y)) (S n) (S k) (r + sq x y)) as (F2 & S2 & M2 & N2); auto; try lia; try lra.
    + rewrite V. apply Rle_trans with ((B2R a + B2R (dsq x y)) * (1 + eps)).
      * apply rnd_rel_sane. apply (sane_weaken (-300)); [lia|exact SS].
      * rewrite S_INR. cbn [pow].
        apply Rle_trans with (((INR n + 1) * 1152921504606846976 * (1 + eps) ^ n) * (1 + eps)); [|lra].
        pose proof eps_pos. apply Rmult_le_compat_r; [lra|]. lra.
    + replace (3 + S k)%nat with (S (3 + k)) by lia. rewrite V. apply near_rnd; [lra| |].
      * apply (sane_weaken (-300)); [lia|exact SS].
      * apply near_add; [exact N|]. apply (near_up 3); [lia|exact R'|now apply square_near].
    + repeat split; auto; try lra;
        replace (3 + k + S (length xs))%nat with (3 + S k + length xs)%nat by lia;
        rewrite <- Rplus_assoc; apply N2.
Qed.
Lemma sum_squares_pos : forall xs ys, 0 <= sum_squares xs ys.
Proof. induction xs as [|x xs IH]; intros [|y ys]; cbn [sum_squares]; try lra. pose proof (IH ys). pose proof (Rle_0_sqr (B2R x - B2R y)) as Q. unfold Rsqr in Q. lra. Qed.
Lemma sum_squares_sym : forall xs ys, sum_squares xs ys = sum_squares ys xs.
Proof. induction xs as [|x xs IH]; intros [|y ys]; cbn [sum_squares]; try lra. rewrite (IH ys). ring. Qed.
Lemma exact_sym xs ys : exact_distance xs ys = exact_distance ys xs.
Proof. unfold exact_distance. now rewrite sum_squares_sym. Qed.

(** ** The root *)
Lemma dsqrt_val (a : double) : is_finite a = true -> 0 <= B2R a -> is_finite (dsqrt a) = true /\ B2R (dsqrt a) = rnd (sqrt (B2R a)).
Proof.
  intros F P. destruct (Bsqrt_correct 53 1024 prec_ok emax_ok mode_NE a) as (V & F' & _). fold (dsqrt a) in *.
  split; [|exact V]. rewrite F'. destruct a as [s| | |s m e B]; try discriminate; auto.
  destruct s; auto. exfalso. cbn in P. pose proof (F2R_lt_0 radix2 {| Fnum := Z.neg m; Fexp := e |} (eq_refl : (Z.neg m < 0)%Z)) as X.
  cbn in X. unfold F2R in X. cbn in X. unfold F2R in P. cbn in P. lra.
Qed.
Lemma sqrt_sane x : sane (-300) x -> sane (-150) (sqrt x).
Proof.
  intros [->|H]; [left; apply sqrt_0|right].
  rewrite <- (sqrt_square (bpow radix2 (-150))) by apply bpow_ge_0. apply sqrt_le_1_alt.
  rewrite <- bpow_plus. exact H.
Qed.
Definition dist (xs ys : list double) : double := dsqrt (acc xs ys dzero).
Lemma zero_fin : is_finite dzero = true /\ B2R dzero = 0. Proof. split; reflexivity. Qed.
Theorem dist_ok xs ys : Forall in_range xs -> Forall in_range ys -> length xs = length ys -> (length xs <= 5)%nat ->
  is_finite (dist xs ys) = true /\ 0 <= B2R (dist xs ys) /\
  exact_distance xs ys * (1 - / 2 ^ 49) <= B2R (dist xs ys) <= exact_distance xs ys * (1 + / 2 ^ 49).
Proof.
  intros Hx Hy L N. destruct (acc_ok xs ys dzero 0 0 0 Hx Hy L) as (F & S & _ & A); try (cbn; lra); try lia; auto.
  { left. reflexivity. } { unfold near. cbn. lra. }
  cbn zeta in *. pose proof (sane_nonneg _ _ S) as P. destruct (dsqrt_val _ F P) as (F' & V). fold (dist xs ys) in F', V.
  pose proof (sum_squares_pos xs ys) as Q. rewrite Rplus_0_l in A.
  assert (A9 : near 9 (exact_distance xs ys) (B2R (dist xs ys))).
  { rewrite V. apply (near_up (Datatypes.S (3 + 0 + length xs)%nat)); [lia|apply sqrt_pos|]. apply near_rnd; [apply sqrt_pos| |].
    - apply (sane_weaken (-150)); [lia|]. now apply sqrt_sane.
    - apply near_sqrt; assumption. }
  repeat split; auto.
  - rewrite V. rewrite <- rnd_zero. apply rnd_le, sqrt_pos.
  - apply near_9; [apply sqrt_pos|exact A9].
  - apply near_9; [apply sqrt_pos|exact A9].
Qed.

(** ** Pruning *)
Lemma above (m d : double) : 0 <= B2R m -> B2R m < B2R d -> B2R m * (1 + eps) <= B2R d.
Proof.
  intros P L.
  pose proof (succ_le_lt radix2 (SpecFloat.fexp 53 1024) (B2R m) (B2R d) (generic_format_B2R _ _ m) (generic_format_B2R _ _ d) L) as S.
  rewrite succ_eq_pos in S by exact P.
  destruct (Req_dec (B2R m) 0) as [Z|NZ]; [rewrite Z in *; lra|].
  assert (U : Rabs (B2R m) * bpow radix2 (- (53)) <= ulp radix2 (FLT_exp (-1074) 53) (B2R m)).
  { left. apply ulp_FLT_gt. reflexivity. }
  rewrite Rabs_pos_eq in U by exact P. change (bpow radix2 (- (53))) with eps in U.
  change (ulp radix2 (FLT_exp (-1074) 53) (B2R m)) with (ulp radix2 (SpecFloat.fexp 53 1024) (B2R m)) in U. lra.
Qed.
Theorem prune (x y m : double) xs ys : Forall in_range (x :: xs) -> Forall in_range (y :: ys) -> length xs = length ys -> (length xs < 5)%nat ->
  is_finite m = true -> 0 <= B2R m -> B2R m < B2R (dsub x y) -> B2R m <= B2R (dist (x :: xs) (y :: ys)).
Proof.
  intros Hx Hy L N Fm Pm H. inversion Hx; inversion Hy; subst.
  destruct (delta_val x y H2 H6) as (Fd & _ & _ & _ & Sd).
  destruct (square_val x y H2 H6) as (Fs & Vs & Us & Ss).
  destruct (acc_step dzero x y 0) as (F1 & V1 & _ & S1 & _); auto; try (cbn; lra). { left; reflexivity. }
  assert (V2 : B2R (dadd dzero (dsq x y)) = B2R (dsq x y)).
  { rewrite V1. change (B2R dzero) with 0. rewrite Rplus_0_l. apply rnd_double. }
  destruct (acc_ok xs ys (dadd dzero (dsq x y)) 1 0 (sq x y) H3 H7 L) as (F & S & M & _); auto; try lia.
  { rewrite V2. cbn. pose proof eps_pos. nra. } { apply Rle_0_sqr. } { rewrite V2. now apply square_near. }
  cbn zeta in *. unfold dist. cbn [acc]. set (b := acc xs ys _) in *.
  pose proof (sane_nonneg _ _ S) as P. destruct (dsqrt_val b F P) as (F' & V). rewrite V.
  rewrite <- (rnd_double m). apply rnd_le. apply Rle_trans with (sqrt (B2R (dsq x y))); [|apply sqrt_le_1_alt; lra].
  rewrite <- (sqrt_square (B2R m)) by exact Pm. apply sqrt_le_1_alt. rewrite Vs.
  set (d := dsub x y) in *. pose proof (above m d Pm H) as A.
  assert (SS := sq_sane _ _ Sd). assert (SS' : sane (-1000) (B2R d * B2R d)) by (apply (sane_weaken (-117 + -117)); [lia|exact SS]).
  apply Rle_trans with (2 := proj1 (rnd_rel_sane _ SS')). pose proof eps_pos as E.
  apply Rle_trans with ((B2R m * (1 + eps)) * (B2R m * (1 + eps)) * (1 - eps)).
  - replace (B2R m * (1 + eps) * (B2R m * (1 + eps)) * (1 - eps)) with (B2R m * B2R m * (1 + (eps - eps * eps - eps * eps * eps))) by ring.
    assert (0 <= eps - eps * eps - eps * eps * eps) by (unfold eps; lra). nra.
  - apply Rmult_le_compat_r; [lra|]. apply Rmult_le_compat; try nra.
Qed.
