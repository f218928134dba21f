(** C111: what the squeeze test counts. *)
From Coq Require Import ZArith Reals Lra Lia List Bool.
From Flocq Require Import Core IEEE754.BinarySingleNaN.
From Verif Require Import SqueezeModel SqueezeSpec DoubleLemmas DoubleLemmas2 DoubleLemmas3 ChisqDoubles BaseLemmas TallyLemmas.
Import ListNotations.
Open Scope R_scope.

Lemma ceil_val (x : double) : is_finite x = true -> (- 2 ^ 31 <= Zceil (B2R x) < 2 ^ 31)%Z -> ceil_int x = Ok (Zceil (B2R x)).
Proof.
  destruct x as [s|s| |s m e H]; intros F B; try discriminate.
  - cbn [ceil_int B2R]. now rewrite Zceil_IZR.
  - set (v := (if s then Z.neg m else Z.pos m)).
    assert (V : B2R (@B754_finite 53 1024 s m e H) = IZR v * bpow radix2 e) by (destruct s; reflexivity).
    assert (E : Zceil (B2R (@B754_finite 53 1024 s m e H)) = if (0 <=? e)%Z then (v * 2 ^ e)%Z else (- (- v / 2 ^ (- e)))%Z).
    { rewrite V. destruct (Z.leb_spec 0 e).
      - rewrite <- (IZR_Zpower radix2) by lia. rewrite <- mult_IZR. apply Zceil_IZR.
      - unfold Zceil. f_equal. rewrite <- Zfloor_div by (apply Z.pow_nonzero; lia). f_equal. rewrite opp_IZR.
        change 2%Z with (radix_val radix2). rewrite (IZR_Zpower radix2) by lia. rewrite bpow_opp. field. apply Rgt_not_eq, bpow_gt_0. }
    unfold ceil_int. fold v. cbv zeta. rewrite <- E.
    destruct (Z.leb_spec (- 2 ^ 31) (Zceil (B2R (@B754_finite 53 1024 s m e H)))); [|lia].
    destruct (Z.ltb_spec (Zceil (B2R (@B754_finite 53 1024 s m e H))) (2 ^ 31)); [|lia]. reflexivity.
Qed.
Definition deviate (x : double) : Prop := is_finite x = true /\ 0 <= B2R x <= 1.
Lemma product_range k (x : double) : (0 <= k <= 2147483647)%Z -> deviate x -> 0 <= rnd (IZR k * B2R x) <= IZR k.
Proof.
  intros K (F & X). assert (KR : 0 <= IZR k) by (apply IZR_le; lia). split.
  - rewrite <- rnd_zero. apply rnd_le. nra.
  - apply Rle_trans with (rnd (IZR k)); [apply rnd_le; nra|]. rewrite rnd_int by lia. lra.
Qed.
Lemma step_ok k (x : double) : (0 <= k <= 2147483647)%Z -> deviate x ->
  ceil_int (dmul (d_of_Z k) x) = Ok (Zceil (rnd (IZR k * B2R x))) /\ (0 <= Zceil (rnd (IZR k * B2R x)) <= k)%Z.
Proof.
  intros K D. pose proof (product_range k x K D) as (R0 & R1). destruct D as (F & X).
  destruct (d_of_Z_val k ltac:(lia)) as (Fk & Vk & _).
  assert (B : (0 <= Zceil (rnd (IZR k * B2R x)) <= k)%Z).
  { split; [rewrite <- (Zceil_IZR 0); now apply Zceil_le|rewrite <- (Zceil_IZR k) at 2; now apply Zceil_le]. }
  split; [|exact B].
  destruct (dmul_tame (d_of_Z k) x Fk F) as (Fm & Vm).
  - rewrite Vk. rewrite Rabs_pos_eq by (apply Rmult_le_pos; [apply IZR_le; lia|lra]).
    apply Rle_trans with (bpow radix2 31); [|apply bpow_le; lia]. replace (bpow radix2 31) with 2147483648 by (cbn; lra). assert (IZR k <= 2147483647) by (apply IZR_le; lia). assert (0 <= IZR k) by (apply IZR_le; lia). nra.
  - rewrite ceil_val; rewrite ?Vm, ?Vk; auto. lia.
Qed.
Lemma squeezed_S u k c n : squeezed u k c (Datatypes.S n) = Zceil (rnd (IZR (squeezed u k c n) * B2R (u (c + n)%nat))).
Proof.
  revert k c. induction n as [|n IH]; intros k c.
  - cbn [squeezed]. now rewrite Nat.add_0_r.
  - change (squeezed u k c (Datatypes.S (Datatypes.S n))) with (squeezed u (Zceil (rnd (IZR k * B2R (u c)))) (Datatypes.S c) (Datatypes.S n)).
    rewrite IH. cbn [squeezed]. now rewrite Nat.add_succ_comm.
Qed.
Section Counts.
Variable u : nat -> double.
Hypothesis U : forall i, deviate (u i).
Lemma squeezed_range c n : (0 <= squeezed u 2147483647 c n <= 2147483647)%Z.
Proof. induction n as [|n IH]; [cbn; lia|]. rewrite squeezed_S. destruct (step_ok _ (u (c + n)%nat) IH (U _)) as (_ & B). lia. Qed.
Lemma loop_ok c : forall n i, (i + n = 48)%nat -> (forall t, (t < i)%nat -> squeezed u 2147483647 c t <> 1%Z) ->
  exists j, squeeze_loop u n (squeezed u 2147483647 c i) (Z.of_nat i) (c + i) = Ok (Z.of_nat j, (c + j)%nat) /\ takes u c j.
Proof.
  induction n as [|n IH]; intros i I H; cbn [squeeze_loop].
  - exists i. split; [reflexivity|]. split; [lia|]. split; [exact H|]. right. lia.
  - destruct (Z.eqb_spec (squeezed u 2147483647 c i) 1) as [E|E].
    + exists i. split; [reflexivity|]. split; [lia|]. split; [exact H|]. now left.
    + destruct (step_ok _ (u (c + i)%nat) (squeezed_range c i) (U _)) as (-> & _). cbn [bind]. rewrite <- squeezed_S.
      destruct (IH (Datatypes.S i)) as (j & E2 & T); [lia| |].
      * intros t Ht. destruct (Nat.eq_dec t i) as [->|]; [exact E|]. apply H. lia.
      * exists j. split; [|exact T]. rewrite <- E2. f_equal; lia.
Qed.
Lemma samples_ok : forall n x done c, length x = 43%nat -> tallies x done ->
  exists l c' x', squeeze_samples u n x c = Ok (x', c') /\ length l = n /\ samples u c l c' /\ length x' = 43%nat /\ tallies x' (done ++ map steps_bin l).
Proof.
  induction n as [|n IH]; intros x dn c L T; cbn [squeeze_samples].
  - exists [], c, x. cbn [map]. rewrite app_nil_r. split; [reflexivity|]. split; [reflexivity|]. split; [constructor|]. now split.
  - destruct (loop_ok c 48 0 eq_refl) as (j & E & H); [intros t Ht; lia|]. cbn [squeezed Z.of_nat] in E. rewrite Nat.add_0_r in E. rewrite E. cbn [bind].
    assert (B : (Z.of_nat j <? 6)%Z = true /\ (j < 6)%nat \/ (Z.of_nat j <? 6)%Z = false /\ (6 <= j)%nat) by (destruct (Z.ltb_spec (Z.of_nat j) 6); [left|right]; split; auto; lia).
    assert (SB : ((if (Z.of_nat j <? 6)%Z then 6 else Z.of_nat j) - 6)%Z = steps_bin j) by (unfold steps_bin; destruct B as [(-> & B)|(-> & B)]; lia).
    rewrite SB. destruct (tallies_bump x dn (steps_bin j) T) as (x1 & E1 & L1 & T1).
    + rewrite L. unfold steps_bin. destruct H as (J & _). lia.
    + rewrite E1. cbn [bind]. destruct (IH x1 _ (c + j)%nat ltac:(lia) T1) as (l & c' & x' & E2 & L2 & S2 & L3 & T3).
      exists (j :: l), c', x'. rewrite <- app_assoc in T3. split; [exact E2|]. split; [cbn; lia|]. split; [econstructor; eassumption|]. now split.
Qed.
(** C111: every sample takes part once, in the bin of its number of steps. *)
Theorem C111_counts : forall tsamples, (tsamples < 2 ^ 31)%N ->
  exists steps c x, diehard_squeeze u tsamples = Ok (x, c) /\ length steps = N.to_nat tsamples /\ samples u 0 steps c /\
    length x = 43%nat /\ tallies x (map steps_bin steps) /\ Tally.total x = tsamples.
Proof.
  intros n N. unfold diehard_squeeze. destruct (N.leb_spec (2 ^ 31) n); [lia|].
  destruct (samples_ok (N.to_nat n) (repeat 0%N 43) [] 0 eq_refl (tallies_nil 43)) as (l & c & x & E & L & S & LX & T).
  exists l, c, x. cbn [app] in T. split; [exact E|]. split; [exact L|]. split; [exact S|]. split; [exact LX|]. split; [exact T|]. rewrite (tallies_total _ _ T), map_length. lia.
Qed.
(** A deviate of 0 takes k to 0, where it stays: the sample is given up. *)
Theorem C111_zero : forall c i j, (i < 48)%nat -> (forall t, (t <= i)%nat -> squeezed u 2147483647 c t <> 1%Z) -> B2R (u (c + i)%nat) = 0 ->
  takes u c j -> j = 48%nat.
Proof.
  intros c i j I H Z (J & K1 & K2). destruct K2 as [K2|K2]; [|exact K2]. exfalso.
  assert (A : forall d, squeezed u 2147483647 c (Datatypes.S i + d) = 0%Z).
  { induction d as [|d IH].
    - rewrite Nat.add_0_r, squeezed_S, Z, Rmult_0_r, rnd_zero. apply Zceil_IZR.
    - rewrite Nat.add_succ_r, squeezed_S, IH, Rmult_0_l, rnd_zero. apply Zceil_IZR. }
  destruct (Nat.le_gt_cases j i) as [L|L]; [now apply (H j L)|]. specialize (A (j - Datatypes.S i)%nat).
  replace (Datatypes.S i + (j - Datatypes.S i))%nat with j in A by lia. rewrite A in K2. discriminate.
Qed.
End Counts.
(** C111: a step is the exact one, or one less where the product is just above
    an integer. *)
Theorem C111_step : forall k (x : double), (0 <= k <= 2147483647)%Z -> deviate x ->
  let exact := Zceil (IZR k * B2R x) in let step := Zceil (rnd (IZR k * B2R x)) in
  step = exact \/ step = (exact - 1)%Z /\ rnd (IZR k * B2R x) = IZR (exact - 1) /\ IZR (exact - 1) < IZR k * B2R x.
Proof.
  intros k x K D exact step. pose proof D as (F & X). assert (KR : 0 <= IZR k <= 2147483647) by (split; apply IZR_le; lia).
  assert (EB : (0 <= exact <= 2147483647)%Z).
  { unfold exact. split; [rewrite <- (Zceil_IZR 0)|rewrite <- (Zceil_IZR 2147483647)]; apply Zceil_le; nra. }
  pose proof (Zceil_ub (IZR k * B2R x)) as H1. fold exact in H1.
  assert (H2 : IZR (exact - 1) < IZR k * B2R x) by (rewrite minus_IZR; pose proof (Zceil_lb (IZR k * B2R x)); fold exact in H; lra).
  assert (H3 : rnd (IZR k * B2R x) <= IZR exact) by (apply Rle_trans with (rnd (IZR exact)); [now apply rnd_le|rewrite rnd_int by lia; lra]).
  assert (H4 : IZR (exact - 1) <= rnd (IZR k * B2R x)) by (apply Rle_trans with (rnd (IZR (exact - 1))); [rewrite rnd_int by lia; lra|now apply rnd_le, Rlt_le]).
  destruct (Req_dec (rnd (IZR k * B2R x)) (IZR (exact - 1))) as [E|E].
  - right. unfold step. rewrite E. split; [apply Zceil_IZR|]. split; [reflexivity|exact H2].
  - left. unfold step. apply Zceil_imp. split; [lra|exact H3].
Qed.
(** ... and exact for deviates n/2^32 once k is at most 2^21. *)
Theorem C111_exact : forall k (x : double) n, (0 <= k <= 2 ^ 21)%Z -> (0 <= n < 2 ^ 32)%Z -> B2R x = IZR n * / 2 ^ 32 ->
  rnd (IZR k * B2R x) = IZR k * B2R x.
Proof.
  intros k x n K N E. replace (IZR k * B2R x) with (F2R (Float radix2 (k * n) (-32))).
  - apply round_generic; [auto with typeclass_instances|]. apply generic_format_F2R. cbn [Fnum Fexp]. intros Nz. unfold cexp.
    unfold SpecFloat.fexp, SpecFloat.emin. apply Z.max_lub; [|lia].
    enough (mag radix2 (F2R (Float radix2 (k * n) (-32))) <= 21)%Z by lia.
    apply mag_le_bpow; [apply F2R_neq_0; exact Nz|]. rewrite <- F2R_Zabs. rewrite Z.abs_eq by nia. unfold F2R. cbn [Fnum Fexp].
    replace (bpow radix2 21) with (bpow radix2 53 * bpow radix2 (-32)) by (rewrite <- bpow_plus; reflexivity).
    apply Rmult_lt_compat_r; [apply bpow_gt_0|]. rewrite <- (IZR_Zpower radix2) by lia. apply IZR_lt. change (Zpower radix2 53) with (2 ^ 21 * 2 ^ 32)%Z. nia.
  - unfold F2R. cbn [Fnum Fexp]. rewrite mult_IZR, E. replace (bpow radix2 (-32)) with (/ 2 ^ 32) by (cbn; lra). ring.
Qed.
(** where it is not: k = 2^31-1 and the deviate (2^31-1)/2^32 *)
Example C111_below : ceil_int (dmul (d_of_Z 2147483647) (ddiv (d_of_Z 2147483647) (d_of_Z 4294967296))) = Ok 1073741823%Z /\
  (1073741823 * 4294967296 < 2147483647 * 2147483647)%Z.
Proof. split; [vm_compute; reflexivity|lia]. Qed.
(** the deviate 1/2 each time takes 31 steps *)
Example C111_half : diehard_squeeze (fun _ => dhalf) 2 = Ok (repeat 0%N 25 ++ [2%N] ++ repeat 0%N 17, 62%nat) /\ deviate dhalf.
Proof.
  split; [vm_compute; reflexivity|]. split; [reflexivity|]. replace (B2R dhalf) with (/ 2); [lra|]. unfold dhalf. cbn. unfold F2R. cbn. lra.
Qed.
Example C111_given_up : diehard_squeeze (fun i => if Nat.eqb i 3 then dzero else dhalf) 1 = Ok (repeat 0%N 42 ++ [1%N], 48%nat).
Proof. vm_compute. reflexivity. Qed.
Print Assumptions C111_counts.
Print Assumptions C111_step.
Print Assumptions C111_exact.
