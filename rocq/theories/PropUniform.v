(** Property C81: gsl_rng_uniform should return a number in [0,1). *)
From Coq Require Import NArith ZArith List Bool Reals Lra Lia.
From Flocq Require Import Core IEEE754.BinarySingleNaN.
From Verif Require Import UniformModel DoubleLemmas DoubleLemmas2 GensSpec GensLemmas PropGens.
Import ListNotations.
Open Scope R_scope.

(** The largest possible result below one. *)
Definition below_one : double := @B754_finite 53 1024 false 9007199252643840 (-53) eq_refl.
Lemma below_one_val : B2R below_one = 1 - / 4294967296.
Proof.
  change (B2R below_one) with (IZR 9007199252643840 * bpow radix2 (-53))%R.
  change (bpow radix2 (-53)) with (/ IZR 9007199254740992)%R. lra.
Qed.
Lemma d_of_Z_rnd z : (0 <= z <= 2 ^ 64)%Z ->
  is_finite (d_of_Z z) = true /\ B2R (d_of_Z z) = rnd (IZR z) /\ 0 <= rnd (IZR z) <= bpow radix2 64.
Proof.
  intro H. pose proof (binary_normalize_correct 53 1024 prec_ok emax_ok mode_NE z 0 false) as B.
  cbv zeta in B. fold (d_of_Z z) in B.
  replace (F2R (Float radix2 z 0)) with (IZR z) in B by (unfold F2R; cbn; lra).
  change (round radix2 (SpecFloat.fexp 53 1024) (round_mode mode_NE) (IZR z)) with (rnd (IZR z)) in B.
  assert (L : 0 <= rnd (IZR z)) by (rewrite <- rnd_zero; apply rnd_le; apply (IZR_le 0); lia).
  assert (U : rnd (IZR z) <= bpow radix2 64).
  { replace (bpow radix2 64) with (rnd (bpow radix2 64)).
    - apply rnd_le. change (bpow radix2 64) with (IZR (2 ^ 64)). apply IZR_le. lia.
    - unfold rnd. apply round_generic; auto with typeclass_instances.
      apply generic_format_bpow. unfold SpecFloat.fexp. cbn. lia. }
  rewrite Rlt_bool_true in B.
  - destruct B as (B1 & B2 & _). auto.
  - rewrite Rabs_pos_eq by exact L. apply Rle_lt_trans with (1 := U). apply bpow_lt. lia.
Qed.
Lemma over_val v : (v <= 2 ^ 64)%N -> is_finite (over_uint_max v) = true /\
  B2R (over_uint_max v) = rnd (rnd (IZR (Z.of_N v)) / 4294967295).
Proof.
  intro H. unfold over_uint_max.
  destruct (d_of_Z_rnd (Z.of_N v)) as (F & V & R); [lia|].
  destruct (d_of_Z_val 4294967295) as (F1 & V1 & _); [lia|].
  rewrite <- V, <- V1. apply ddiv_val; [exact F| |].
  - rewrite V1. lra.
  - rewrite V, V1.
    assert (Q : 0 <= rnd (IZR (Z.of_N v)) / 4294967295 <= bpow radix2 64).
    { change (bpow radix2 64) with 18446744073709551616 in *. split; [|lra].
      apply Rmult_le_pos; lra. }
    rewrite Rabs_pos_eq.
    + apply Rle_lt_trans with (bpow radix2 64); [|apply bpow_lt; lia].
      replace (bpow radix2 64) with (rnd (bpow radix2 64)).
      * apply rnd_le, Q.
      * unfold rnd. apply round_generic; auto with typeclass_instances.
        apply generic_format_bpow. unfold SpecFloat.fexp. cbn. lia.
    + rewrite <- rnd_zero at 1. apply rnd_le, Q.
Qed.
Lemma over_small v : (v < 2 ^ 53)%N -> is_finite (over_uint_max v) = true /\
  B2R (over_uint_max v) = rnd (IZR (Z.of_N v) / 4294967295).
Proof. intro H. destruct (over_val v) as (F & V); [lia|]. rewrite rnd_int in V by lia. auto. Qed.
Lemma rnd_one : rnd 1 = 1.
Proof. apply (rnd_int 1). lia. Qed.

Lemma grid k : (0 <= k <= 2 ^ 52)%Z -> rnd (IZR k * / 8589934592) = IZR k * / 8589934592.
Proof.
  intro H. unfold rnd. apply round_generic; auto with typeclass_instances.
  apply (generic_format_FLT radix2 (-1074) 53). exists (Float radix2 k (-33)).
  - unfold F2R. cbn [Fnum Fexp]. change (bpow radix2 (-33)) with (/ IZR 8589934592). reflexivity.
  - cbn. lia.
  - cbn. lia.
Qed.

(** For every output [v] of a generator declared with maximum 2^32 - 1, the
    number is in [0,1], and it is below one exactly if [v] is not the
    maximum. *)
Theorem C81_closed : forall v, (v < 2 ^ 32)%N ->
  dle dzero (over_uint_max v) = true /\ dle (over_uint_max v) DoubleModel.done = true /\
  (dlt (over_uint_max v) DoubleModel.done = true <-> v <> (2 ^ 32 - 1)%N).
Proof.
  intros v H. destruct (over_small v) as (F & V); [lia|].
  pose proof (finite_nan _ F) as NN. rewrite !dle_val, dlt_val by (auto; reflexivity).
  rewrite (val_finite _ F), val_zero, val_one, V.
  assert (Z0 : 0 <= IZR (Z.of_N v)) by (apply (IZR_le 0); lia).
  assert (Z1 : IZR (Z.of_N v) <= 4294967295) by (apply (IZR_le (Z.of_N v) 4294967295); lia).
  split; [rewrite <- rnd_zero at 1; apply rnd_le; lra|].
  split; [apply Rle_trans with (rnd 1); [apply rnd_le; lra|rewrite rnd_one; lra]|]. split.
  - intros L E. subst v. revert L. change (Z.of_N (2 ^ 32 - 1)) with 4294967295%Z.
    replace (4294967295 / 4294967295) with 1 by lra. rewrite rnd_one. lra.
  - intro Hne. assert (Z2 : IZR (Z.of_N v) <= 4294967294) by (apply (IZR_le (Z.of_N v) 4294967294); lia).
    apply Rle_lt_trans with (B2R below_one); [|rewrite below_one_val; lra].
    rewrite <- rnd_double. apply rnd_le. rewrite below_one_val. lra.
Qed.
(** No two outputs give the same number. *)
Theorem C81_distinct : forall v w, (v < w)%N -> (w < 2 ^ 32)%N ->
  dlt (over_uint_max v) (over_uint_max w) = true.
Proof.
  intros v w Hvw Hw. destruct (over_small v) as (F & V); [lia|]. destruct (over_small w) as (F' & V'); [lia|].
  rewrite dlt_val by (apply finite_nan; assumption). rewrite !val_finite by assumption. rewrite V, V'.
  set (k := (8589934592 * Z.of_N v / 4294967295 + 1)%Z).
  assert (K1 : (8589934592 * Z.of_N v <= 4294967295 * k)%Z) by (unfold k; pose proof (Z.div_mod (8589934592 * Z.of_N v) 4294967295 ltac:(lia)); pose proof (Z.mod_pos_bound (8589934592 * Z.of_N v) 4294967295 ltac:(lia)); lia).
  assert (K2 : (4294967295 * k <= 8589934592 * Z.of_N v + 4294967295)%Z) by (unfold k; pose proof (Z.div_mod (8589934592 * Z.of_N v) 4294967295 ltac:(lia)); pose proof (Z.mod_pos_bound (8589934592 * Z.of_N v) 4294967295 ltac:(lia)); lia).
  clearbody k. assert (K3 : (0 <= k <= 2 ^ 40)%Z) by lia.
  apply Rle_lt_trans with (IZR k * / 8589934592).
  - rewrite <- grid by lia. apply rnd_le. apply IZR_le in K1. rewrite !mult_IZR in K1. lra.
  - apply Rlt_le_trans with (IZR (k + 1) * / 8589934592); [rewrite plus_IZR; lra|].
    rewrite <- grid by lia. apply rnd_le. apply IZR_le in K2. rewrite plus_IZR, !mult_IZR in K2. rewrite plus_IZR.
    assert (IZR (Z.of_N v) + 1 <= IZR (Z.of_N w)) by (rewrite <- (plus_IZR _ 1); apply IZR_le; lia). lra.
Qed.
(** So gsl_rng_uniform reaches one: kiss, for a seed whose first number is the maximum. *)
Theorem C81_kiss_refuted : exists mt, (forall s i, mt s i < 2 ^ 32)%N /\
  exists st st' d, kiss_set mt 1 (mkK 0 0 0 0) 1 = Ok st /\ kiss_get_double st = Ok (d, st') /\
    dlt d DoubleModel.done = false /\ d = over_uint_max (2 ^ 32 - 1).
Proof.
  exists (fun _ i => nth i [2721305742; 1; 0; 0]%N 0%N).
  split; [intros _ i; do 5 (destruct i as [|i]; [reflexivity|]); reflexivity|].
  exists (mkK 2721305742 1 0 1), (mkK 4156555229 138412065 1 0), (over_uint_max (2 ^ 32 - 1)).
  split; [vm_compute; reflexivity|]. split.
  { unfold kiss_get_double. replace (kiss_get (mkK 2721305742 1 0 1)) with (Ok (4294967295, mkK 4156555229 138412065 1 0)%N)
      by (vm_compute; reflexivity). reflexivity. }
  split; [|reflexivity]. destruct (C81_closed (2 ^ 32 - 1)%N eq_refl) as (_ & _ & L).
  destruct (dlt _ _); [|reflexivity]. exfalso. apply (proj1 L eq_refl). reflexivity.
Qed.
(** The device generators are above one unless four of their bytes are zero. *)
Theorem C81_device_refuted : forall l dev, length l = 8%nat -> Forall (fun b => b < 256)%N l ->
  skipn 4 l <> [0; 0; 0; 0]%N -> exists d, dev_random_get_double (l ++ dev) = Ok (d, dev) /\
    dgt d DoubleModel.done = true.
Proof.
  intros l dev Hl Fl N0. pose proof (C29_dev_random l dev Hl) as E.
  pose proof (proj2 (C29_dev_random_refuted l dev _ Hl Fl E) N0) as B.
  unfold dev_random_get_double. rewrite E. cbn [bind]. eexists. split; [reflexivity|].
  assert (U : (le_value l < 2 ^ 64)%N).
  { clear - Hl Fl. destruct l as [|a [|b [|c [|d [|e [|f [|g [|h [|x l]]]]]]]]]; try discriminate.
    repeat match goal with H : Forall _ (_ :: _) |- _ => inversion H; clear H; subst end.
    cbn [le_value fold_right]. lia. }
  destruct (over_val (le_value l)) as (F & V); [lia|].
  unfold dgt. fold (dlt DoubleModel.done (over_uint_max (le_value l))).
  rewrite dlt_val by (try reflexivity; apply finite_nan; exact F).
  rewrite (val_finite _ F), val_one, V.
  assert (R : 4294967296 <= rnd (IZR (Z.of_N (le_value l)))).
  { rewrite <- (rnd_int 4294967296) by lia. apply rnd_le, IZR_le. lia. }
  apply Rlt_le_trans with (IZR 8589934594 * / 8589934592); [lra|].
  rewrite <- grid by lia. apply rnd_le. lra.
Qed.
Example C81_ex : exists d, dev_random_get_double [0;0;0;0;1;0;0;0;9]%N = Ok (d, [9]%N) /\ dgt d DoubleModel.done = true.
Proof. apply (C81_device_refuted [0;0;0;0;1;0;0;0]%N [9]%N); [reflexivity|repeat constructor|discriminate]. Qed.
Print Assumptions C81_closed.
