(** Double arithmetic with results of moderate size. *)
From Coq Require Import ZArith Bool Reals Lra Lia.
From Flocq Require Import Core Relative IEEE754.BinarySingleNaN.
From Verif Require Import DoubleModel DoubleLemmas DoubleLemmas2.
Open Scope R_scope.

Definition moderate (x : R) : Prop := Rabs x <= bpow radix2 64.
Lemma rnd_moderate x : moderate x -> Rabs (rnd x) < bpow radix2 1024.
Proof.
  intro H. apply Rle_lt_trans with (bpow radix2 64); [|apply bpow_lt; lia].
  unfold rnd. apply abs_round_le_generic; auto with typeclass_instances.
  apply generic_format_bpow. unfold SpecFloat.fexp. cbn. lia.
Qed.
Lemma dmul_val x y : is_finite x = true -> is_finite y = true -> moderate (B2R x * B2R y) ->
  is_finite (dmul x y) = true /\ B2R (dmul x y) = rnd (B2R x * B2R y).
Proof.
  intros Fx Fy M. pose proof (Bmult_correct 53 1024 prec_ok emax_ok mode_NE x y) as D.
  fold (dmul x y) in D. fold (rnd (B2R x * B2R y)) in D.
  change (round radix2 (SpecFloat.fexp 53 1024) (round_mode mode_NE) (B2R x * B2R y)) with (rnd (B2R x * B2R y)) in D.
  rewrite Rlt_bool_true in D by (apply rnd_moderate, M). destruct D as (D1 & D2 & _). rewrite Fx, Fy in D2. auto.
Qed.
Lemma dadd_val x y : is_finite x = true -> is_finite y = true -> moderate (B2R x + B2R y) ->
  is_finite (dadd x y) = true /\ B2R (dadd x y) = rnd (B2R x + B2R y).
Proof.
  intros Fx Fy M. pose proof (Bplus_correct 53 1024 prec_ok emax_ok mode_NE x y Fx Fy) as D.
  fold (dadd x y) in D.
  change (round radix2 (SpecFloat.fexp 53 1024) (round_mode mode_NE) (B2R x + B2R y)) with (rnd (B2R x + B2R y)) in D.
  rewrite Rlt_bool_true in D by (apply rnd_moderate, M). destruct D as (D1 & D2 & _). auto.
Qed.
Lemma dsub_mod x y : is_finite x = true -> is_finite y = true -> moderate (B2R x - B2R y) ->
  is_finite (dsub x y) = true /\ B2R (dsub x y) = rnd (B2R x - B2R y).
Proof.
  intros Fx Fy M. pose proof (Bminus_correct 53 1024 prec_ok emax_ok mode_NE x y Fx Fy) as D.
  fold (dsub x y) in D.
  change (round radix2 (SpecFloat.fexp 53 1024) (round_mode mode_NE) (B2R x - B2R y)) with (rnd (B2R x - B2R y)) in D.
  rewrite Rlt_bool_true in D by (apply rnd_moderate, M). destruct D as (D1 & D2 & _). auto.
Qed.
Lemma ddiv_mod x y : is_finite x = true -> B2R y <> 0 -> moderate (B2R x / B2R y) ->
  is_finite (ddiv x y) = true /\ B2R (ddiv x y) = rnd (B2R x / B2R y).
Proof. intros Fx Ny M. apply ddiv_val; auto. apply rnd_moderate, M. Qed.
Lemma moderate_le x : -18446744073709551616 <= x <= 18446744073709551616 -> moderate x.
Proof. intro H. unfold moderate. change (bpow radix2 64) with 18446744073709551616. apply Rabs_le. exact H. Qed.

(** The relative error of one rounding. *)
Lemma rnd_rel x : bpow radix2 (-1000) <= x ->
  x * (1 - / 9007199254740992) <= rnd x <= x * (1 + / 9007199254740992).
Proof.
  intro H. assert (P : 0 < x) by (pose proof (bpow_gt_0 radix2 (-1000)); lra).
  pose proof (relative_error_N_FLT radix2 (-1074) 53 eq_refl (fun z => negb (Z.even z)) x) as E.
  change (round radix2 (FLT_exp (-1074) 53) (Znearest (fun z => negb (Z.even z))) x) with (rnd x) in E.
  rewrite Rabs_pos_eq with (x := x) in E by lra.
  change (bpow radix2 (- (53) + 1)) with (/ 4503599627370496) in E.
  assert (B : bpow radix2 (-1074 + 53 - 1) <= x) by (apply Rle_trans with (2 := H); apply bpow_le; lia).
  specialize (E B). apply Rabs_le_inv in E. lra.
Qed.
(** A number that some double approximates strictly better than [b] is not rounded to [b] or above. *)
Lemma rnd_lt x (f : double) b : B2R f <= x -> x - B2R f < b - x -> rnd x < b.
Proof.
  intros L H. destruct (Rlt_or_le (rnd x) b) as [C|C]; [exact C|exfalso].
  pose proof (round_N_pt radix2 (SpecFloat.fexp 53 1024) (fun z => negb (Z.even z)) x) as [_ N].
  specialize (N (B2R f) (generic_format_B2R 53 1024 f)).
  change (round radix2 (SpecFloat.fexp 53 1024) (Znearest (fun z => negb (Z.even z))) x) with (rnd x) in N.
  rewrite (Rabs_pos_eq (rnd x - x)) in N by lra. rewrite (Rabs_left1 (B2R f - x)) in N by lra. lra.
Qed.
Lemma trunc_between x z : IZR z <= x < IZR (z + 1) -> (0 <= z)%Z -> Ztrunc x = z.
Proof.
  intros H Z0. assert (0 <= IZR z) by (apply (IZR_le 0); exact Z0). rewrite Ztrunc_floor by lra.
  apply Zfloor_imp. exact H.
Qed.
