(** More facts about doubles: integers, addition and division, casts,
    neighbours. *)
From Coq Require Import ZArith Bool Reals Lra Lia.
From Flocq Require Import Core IEEE754.BinarySingleNaN.
From Verif Require Import DoubleModel DoubleLemmas.
Open Scope R_scope.

Lemma format_int : forall z, (Z.abs z <= 2 ^ 53)%Z ->
  generic_format radix2 (SpecFloat.fexp 53 1024) (IZR z).
Proof.
  intros z H. destruct (Z.eq_dec (Z.abs z) (2 ^ 53)) as [E|E].
  - assert (B : generic_format radix2 (SpecFloat.fexp 53 1024) (bpow radix2 53)).
    { apply generic_format_bpow. unfold SpecFloat.fexp. cbn. lia. }
    destruct (Z.abs_or_opp_abs z) as [A|A].
    + replace z with (2 ^ 53)%Z by lia. exact B.
    + replace z with (- 2 ^ 53)%Z by lia. rewrite opp_IZR. apply generic_format_opp. exact B.
  - apply (generic_format_FLT radix2 (-1074) 53). exists (Float radix2 z 0).
    + unfold F2R. cbn. lra.
    + cbn. change (2 ^ 53)%Z with 9007199254740992%Z in *. lia.
    + cbn. lia.
Qed.

Lemma rnd_int : forall z, (Z.abs z <= 2 ^ 53)%Z -> rnd (IZR z) = IZR z.
Proof.
  intros z H. unfold rnd. apply round_generic; auto with typeclass_instances. apply format_int, H.
Qed.

Lemma int_small : forall z, (Z.abs z <= 2 ^ 53)%Z -> Rabs (IZR z) < bpow radix2 1024.
Proof.
  intros z H. rewrite <- abs_IZR. apply Rle_lt_trans with (bpow radix2 53).
  - apply (IZR_le (Z.abs z) (2 ^ 53)) in H. exact H.
  - apply bpow_lt. lia.
Qed.

Lemma d_of_Z_val : forall z, (Z.abs z <= 2 ^ 53)%Z ->
  is_finite (d_of_Z z) = true /\ B2R (d_of_Z z) = IZR z /\ Bsign (d_of_Z z) = (z <? 0)%Z.
Proof.
  intros z H. pose proof (binary_normalize_correct 53 1024 prec_ok emax_ok mode_NE z 0 false) as B.
  cbv zeta in B. fold (d_of_Z z) in B.
  replace (F2R (Float radix2 z 0)) with (IZR z) in B by (unfold F2R; cbn; lra).
  fold rnd in B. change (round radix2 (SpecFloat.fexp 53 1024) (round_mode mode_NE) (IZR z)) with (rnd (IZR z)) in B.
  rewrite (rnd_int z H) in B. rewrite Rlt_bool_true in B by (apply int_small, H).
  destruct B as (B1 & B2 & B3). repeat split; auto. rewrite B3.
  destruct (Rcompare_spec (IZR z) 0) as [L|L|L].
  - apply (lt_IZR z 0) in L. destruct (Z.ltb_spec z 0); auto; lia.
  - apply (eq_IZR z 0) in L. subst z. reflexivity.
  - apply (lt_IZR 0 z) in L. destruct (Z.ltb_spec z 0); auto; lia.
Qed.

Lemma val_d_of_Z : forall z, (Z.abs z <= 2 ^ 53)%Z ->
  val (d_of_Z z) = IZR z /\ disnan (d_of_Z z) = false.
Proof.
  intros z H. destruct (d_of_Z_val z H) as (F & V & _). split.
  - rewrite val_finite by exact F. exact V.
  - destruct (d_of_Z z); try discriminate; reflexivity.
Qed.

Lemma finite_nan : forall x : double, is_finite x = true -> disnan x = false.
Proof. intros [| | |] H; try discriminate; reflexivity. Qed.

(** Adding non-negative integers whose sum stays within 2^53 is exact. *)
Lemma dadd_int : forall a b, (0 <= a)%Z -> (0 <= b)%Z -> (a + b <= 2 ^ 53)%Z ->
  dadd (d_of_Z a) (d_of_Z b) = d_of_Z (a + b).
Proof.
  intros a b Ha Hb H.
  destruct (d_of_Z_val a) as (Fa & Va & Sa); [lia|].
  destruct (d_of_Z_val b) as (Fb & Vb & Sb); [lia|].
  destruct (d_of_Z_val (a + b)) as (Fc & Vc & Sc); [lia|].
  pose proof (Bplus_correct 53 1024 prec_ok emax_ok mode_NE _ _ Fa Fb) as P.
  fold (dadd (d_of_Z a) (d_of_Z b)) in P. rewrite Va, Vb, <- plus_IZR in P.
  change (round radix2 (SpecFloat.fexp 53 1024) (round_mode mode_NE) (IZR (a + b))) with (rnd (IZR (a + b))) in P.
  rewrite rnd_int in P by lia. rewrite Rlt_bool_true in P by (apply int_small; lia).
  destruct P as (P1 & P2 & P3). apply B2R_Bsign_inj; auto.
  - rewrite P1, Vc. reflexivity.
  - rewrite P3, Sc, Sa, Sb.
    replace (a <? 0)%Z with false by lia. replace (b <? 0)%Z with false by lia.
    replace (a + b <? 0)%Z with false by lia.
    destruct (Rcompare_spec (IZR (a + b)) 0) as [L|L|L]; auto.
    apply (lt_IZR _ 0) in L. lia.
Qed.

(** Division: the rounded quotient, when it does not overflow. *)
Lemma ddiv_val : forall x y, is_finite x = true -> B2R y <> 0 ->
  Rabs (rnd (B2R x / B2R y)) < bpow radix2 1024 ->
  is_finite (ddiv x y) = true /\ B2R (ddiv x y) = rnd (B2R x / B2R y).
Proof.
  intros x y Fx Ny B. pose proof (Bdiv_correct 53 1024 prec_ok emax_ok mode_NE x y Ny) as D.
  fold (ddiv x y) in D.
  change (round radix2 (SpecFloat.fexp 53 1024) (round_mode mode_NE) (B2R x / B2R y)) with (rnd (B2R x / B2R y)) in D.
  rewrite Rlt_bool_true in D by exact B. destruct D as (D1 & D2 & _). rewrite Fx in D2. auto.
Qed.

(** The cast is the integer part. *)
Lemma dtrunc_val : forall x, is_finite x = true -> dtrunc x = Some (Ztrunc (B2R x)).
Proof.
  intros [s|s| |s m e H] F; try discriminate; cbn [dtrunc B2R].
  - now rewrite Ztrunc_IZR.
  - f_equal.
    assert (P : forall m, (0 <= m)%Z ->
      (if (0 <=? e)%Z then (m * 2 ^ e)%Z else (m / 2 ^ (- e))%Z) = Ztrunc (F2R (Float radix2 m e))).
    { intros k Hk. destruct (Z.leb_spec 0 e).
      - rewrite <- (Ztrunc_IZR (k * 2 ^ e)). f_equal. unfold F2R. cbn [Fnum Fexp].
        rewrite mult_IZR. f_equal. rewrite (IZR_Zpower radix2) by lia. reflexivity.
      - rewrite Ztrunc_floor by (apply F2R_ge_0; cbn; lia). unfold F2R. cbn [Fnum Fexp].
        rewrite <- Zfloor_div by (apply Z.pow_nonzero; lia). f_equal. unfold Rdiv. f_equal.
        rewrite (IZR_Zpower radix2) by lia. rewrite <- bpow_opp. f_equal. lia. }
    destruct s.
    + cbn [cond_Zopp]. rewrite P by lia. rewrite F2R_Zopp, Ztrunc_opp. reflexivity.
    + cbn [cond_Zopp]. rewrite P by lia. reflexivity.
Qed.

(** No double lies strictly between one and its successor. *)
Lemma neighbour : forall a p : double, is_finite a = true -> is_finite (Bsucc a) = true -> is_finite p = true ->
  B2R p <= B2R a \/ B2R (Bsucc a) <= B2R p.
Proof.
  intros a p Fa Fs Fp. destruct (Rle_or_lt (B2R p) (B2R a)) as [L|L]; [left; exact L|right].
  pose proof (Bsucc_correct 53 1024 prec_ok emax_ok a Fa) as S.
  destruct (Rlt_bool _ _).
  - destruct S as (S & _). rewrite S. apply succ_le_lt; auto with typeclass_instances;
    apply generic_format_B2R.
  - exfalso. destruct (Bsucc a); try discriminate Fs; cbn in S; discriminate.
Qed.
