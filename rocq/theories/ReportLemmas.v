From Coq Require Import Reals Lra Lia.
From Flocq Require Import Core IEEE754.BinarySingleNaN.
From Verif Require Import BaseLemmas ReportModel ReportSpec DoubleLemmas DoubleLemmas2.
Open Scope R_scope.

(** * Assessment *)
Definition flagged (x p : double) : bool := dlt p x || dgt p (dsub done x).

Lemma one_minus : forall x, is_finite x = true ->
  disnan (dsub done x) = false /\
  (val x <= / 2 -> / 2 <= val (dsub done x)) /\ (/ 2 <= val x -> val (dsub done x) <= / 2).
Proof.
  intros x F. pose proof big_ge_1. destruct (dsub_val done x eq_refl F) as (N & [[F1 V]|(_ & S & E)]).
  - split; [exact N|]. rewrite V. assert (O : B2R done = 1) by (rewrite <- val_one; reflexivity).
    rewrite O, (val_finite x F). split; intro L.
    + apply Rle_trans with (rnd (/ 2)); [rewrite rnd_half; lra|apply rnd_le; lra].
    + apply Rle_trans with (rnd (/ 2)); [apply rnd_le; lra|rewrite rnd_half; lra].
  - split; [exact N|]. rewrite E. cbn in S. split; intro L.
    + cbn. lra.
    + exfalso. rewrite (val_finite x F) in L.
      destruct x as [s|s| |s m e h]; try discriminate; cbn in S.
      assert (s = true) by (destruct s; auto). subst s. cbn in L.
      pose proof (F2R_lt_0 radix2 (Float radix2 (Z.neg m) e) eq_refl). lra.
Qed.

Lemma flagged_val : forall x p, is_finite x = true -> disnan p = false ->
  (flagged x p = true <-> val p < val x \/ val (dsub done x) < val p).
Proof.
  intros x p F N. destruct (one_minus x F) as (N1 & _). unfold flagged.
  rewrite orb_true_iff, (dlt_val p x N (finite_nan x F)).
  change (dgt p (dsub done x)) with (dlt (dsub done x) p). rewrite (dlt_val _ p N1 N). tauto.
Qed.

Lemma flagged_mono : forall x p q, is_finite x = true -> disnan p = false -> disnan q = false ->
  (val p <= val q <= / 2 \/ / 2 <= val q <= val p) ->
  flagged x q = true -> flagged x p = true.
Proof.
  intros x p q F Np Nq O. rewrite !flagged_val by assumption.
  destruct (one_minus x F) as (_ & A & B). intro H.
  destruct (Rle_or_lt (val x) (/ 2)) as [L|L].
  - specialize (A L). destruct O, H; try (left; lra); right; lra.
  - specialize (B (Rlt_le _ _ L)). destruct O as [O|O]; [left; lra|].
    destruct (Req_dec (val p) (/ 2)); [left; lra|right; lra].
Qed.

Lemma assess_flagged : forall xf xw p, assess xf xw p =
  if flagged xf p then FAILED else if flagged xw p then WEAK else PASSED.
Proof. reflexivity. Qed.

Lemma assess_mono : forall xf xw p q, is_finite xf = true -> is_finite xw = true ->
  disnan p = false -> disnan q = false ->
  (val p <= val q <= / 2 \/ / 2 <= val q <= val p) ->
  (score (assess xf xw p) <= score (assess xf xw q))%nat.
Proof.
  intros xf xw p q Ff Fw Np Nq O. rewrite !assess_flagged.
  pose proof (flagged_mono xf p q Ff Np Nq O). pose proof (flagged_mono xw p q Fw Np Nq O).
  destruct (flagged xf q); [rewrite H by reflexivity; cbn; lia|].
  destruct (flagged xw q).
  - rewrite H0 by reflexivity. destruct (flagged xf p); cbn; lia.
  - destruct (flagged xf p), (flagged xw p); cbn; lia.
Qed.

(** * Histogram *)
Lemma done_minus_zero : dsub done dzero = done.
Proof. reflexivity. Qed.

Lemma B2R_done : B2R done = 1.
Proof. rewrite <- val_one. reflexivity. Qed.

Lemma rnd_bpow : forall e, (-1000 <= e <= 1000)%Z -> rnd (bpow radix2 e) = bpow radix2 e.
Proof.
  intros e H. unfold rnd. apply round_generic; auto with typeclass_instances.
  apply generic_format_bpow. unfold SpecFloat.fexp, SpecFloat.emin. cbn. lia.
Qed.

Lemma inv_bounds : forall nbins, (1 <= nbins <= 2 ^ 30)%Z ->
  bpow radix2 (-30) <= 1 / IZR nbins <= 1.
Proof.
  intros nbins [A B]. assert (1 <= IZR nbins) by (apply (IZR_le 1); lia). split.
  - apply (IZR_le nbins (2 ^ 30)) in B. change (-30)%Z with (Z.opp 30). rewrite bpow_opp.
    unfold Rdiv. rewrite Rmult_1_l. apply Rinv_le; [lra|]. exact B.
  - apply Rmult_le_reg_r with (IZR nbins); [lra|]. unfold Rdiv. rewrite Rmult_assoc, Rinv_l; lra.
Qed.

Lemma scale_val : forall nbins, (1 <= nbins <= 2 ^ 30)%Z ->
  is_finite (binscale dzero done nbins) = true /\
  bpow radix2 (-30) <= B2R (binscale dzero done nbins) <= 1.
Proof.
  intros nbins H. unfold binscale. rewrite done_minus_zero.
  destruct (d_of_Z_val nbins) as (Fn & Vn & _); [lia|].
  assert (N0 : 1 <= IZR nbins) by (apply (IZR_le 1); lia).
  pose proof (inv_bounds nbins H) as [I1 I2].
  assert (R1 : bpow radix2 (-30) <= rnd (1 / IZR nbins)).
  { rewrite <- (rnd_bpow (-30)) by lia. apply rnd_le. exact I1. }
  assert (R2 : rnd (1 / IZR nbins) <= 1).
  { apply Rle_trans with (rnd 1); [apply rnd_le; exact I2|]. rewrite (rnd_int 1) by lia. lra. }
  assert (P : 0 < bpow radix2 (-30)) by apply bpow_gt_0.
  assert (Q : 1 < bpow radix2 1024) by (change 1 with (bpow radix2 0); apply bpow_lt; lia).
  destruct (ddiv_val done (d_of_Z nbins) eq_refl) as (F & V).
  - rewrite Vn. lra.
  - rewrite B2R_done, Vn. rewrite Rabs_right by lra. lra.
  - split; [exact F|]. rewrite V, B2R_done, Vn. lra.
Qed.

(** The quotient p/binscale, for p in [0,1]. *)
Lemma quot_val : forall nbins p, (1 <= nbins <= 2 ^ 30)%Z -> is_finite p = true -> 0 <= B2R p <= 1 ->
  let s := binscale dzero done nbins in
  is_finite (ddiv p s) = true /\ B2R (ddiv p s) = rnd (B2R p / B2R s) /\
  0 <= B2R (ddiv p s) <= bpow radix2 30.
Proof.
  intros nbins p H Fp Bp s. destruct (scale_val nbins H) as (Fs & S1 & S2). fold s in Fs, S1, S2.
  assert (P : 0 < bpow radix2 (-30)) by apply bpow_gt_0.
  assert (Q0 : 0 <= B2R p / B2R s).
  { apply Rmult_le_pos; [lra|]. apply Rlt_le, Rinv_0_lt_compat. lra. }
  assert (Q1 : B2R p / B2R s <= bpow radix2 30).
  { replace (bpow radix2 30) with (/ bpow radix2 (-30)).
    - unfold Rdiv. apply Rle_trans with (1 * / B2R s).
      + apply Rmult_le_compat_r; [apply Rlt_le, Rinv_0_lt_compat; lra|lra].
      + rewrite Rmult_1_l. apply Rinv_le; lra.
    - rewrite <- bpow_opp. reflexivity. }
  assert (R0 : 0 <= rnd (B2R p / B2R s)) by (rewrite <- rnd_zero; apply rnd_le; exact Q0).
  assert (R1 : rnd (B2R p / B2R s) <= bpow radix2 30) by (rewrite <- (rnd_bpow 30) by lia; apply rnd_le; exact Q1).
  destruct (ddiv_val p s Fp) as (F & V).
  - lra.
  - rewrite Rabs_right by lra. apply Rle_lt_trans with (1 := R1). apply bpow_lt. lia.
  - split; [exact F|]. split; [exact V|]. rewrite V. auto.
Qed.

Lemma bin_of_ok : forall nbins p, (1 <= nbins <= 2 ^ 30)%Z -> is_finite p = true -> 0 <= B2R p <= 1 ->
  bin_of (binscale dzero done nbins) nbins p
    = Ok (Z.min (Zfloor (B2R (ddiv p (binscale dzero done nbins)))) (nbins - 1)) /\
  (0 <= Zfloor (B2R (ddiv p (binscale dzero done nbins))))%Z.
Proof.
  intros nbins p H Fp Bp. destruct (quot_val nbins p H Fp Bp) as (Fq & Vq & Q0 & Q1).
  set (q := ddiv p (binscale dzero done nbins)) in *.
  assert (Z0 : (0 <= Zfloor (B2R q))%Z) by (apply Zfloor_lub; exact Q0).
  assert (Z1 : (Zfloor (B2R q) <= 2 ^ 30)%Z).
  { apply le_IZR. apply Rle_trans with (1 := Zfloor_lb _). exact Q1. }
  split; [|exact Z0].
  unfold bin_of, to_int. fold q. rewrite (dtrunc_val q Fq), Ztrunc_floor by exact Q0.
  replace ((- 2 ^ 31 <=? Zfloor (B2R q)) && (Zfloor (B2R q) <? 2 ^ 31))%Z with true by lia.
  cbn [bind]. replace (Zfloor (B2R q) <? 0)%Z with false by lia.
  f_equal. destruct (Z.leb_spec nbins (Zfloor (B2R q))); lia.
Qed.

(** ** Counting *)
Lemma set_nth_same : forall (l : list N) n a, (n < length l)%nat -> nth n (set_nth l n a) 0%N = a.
Proof. induction l; intros [|n] x L; cbn in *; try lia; auto. apply IHl. lia. Qed.
Lemma set_nth_other : forall (l : list N) n k a, n <> k -> nth k (set_nth l n a) 0%N = nth k l 0%N.
Proof. induction l; intros [|n] [|k] x H; cbn; auto; try lia. Qed.

Lemma nsum_set_nth : forall l n a, (n < length l)%nat ->
  (nsum (set_nth l n a) + nth n l 0 = nsum l + a)%N.
Proof.
  induction l; intros n x L; cbn in L; [lia|]. destruct n; cbn.
  - lia.
  - specialize (IHl n x ltac:(lia)). lia.
Qed.

Lemma nth_le_nsum : forall l n, (nth n l 0 <= nsum l)%N.
Proof. induction l; intros [|n]; cbn; try lia. specialize (IHl n). lia. Qed.

Definition in_bin (nbins : Z) (k : nat) (p : double) : bool :=
  match bin_of (binscale dzero done nbins) nbins p with Ok h => (h =? Z.of_nat k)%Z | _ => false end.

Lemma fill_ok : forall nbins (input : list double) bins binmax, (1 <= nbins <= 2 ^ 30)%Z ->
  (forall p, In p input -> is_finite p = true /\ 0 <= B2R p <= 1) ->
  length bins = Z.to_nat nbins -> (nsum bins + N.of_nat (length input) < 2 ^ 32)%N ->
  (forall k, nth k bins 0 <= binmax)%N ->
  exists bins' binmax', fill (binscale dzero done nbins) nbins input bins binmax = Ok (bins', binmax') /\
    length bins' = Z.to_nat nbins /\
    nsum bins' = (nsum bins + N.of_nat (length input))%N /\
    (forall k, (k < Z.to_nat nbins)%nat ->
       nth k bins' 0 = nth k bins 0 + N.of_nat (count (in_bin nbins k) input))%N /\
    (forall k, nth k bins' 0 <= binmax')%N /\
    (binmax <= binmax' <= N.max binmax (nsum bins'))%N.
Proof.
  intros nbins input. induction input as [|p input IH]; intros bins binmax H Hp Hl Hs Hm.
  - exists bins, binmax. split; [reflexivity|]. cbn. repeat split; auto; try lia.
  - destruct (Hp p (or_introl eq_refl)) as [Fp Bp].
    destruct (bin_of_ok nbins p H Fp Bp) as [E E0].
    set (h := Z.min (Zfloor (B2R (ddiv p (binscale dzero done nbins)))) (nbins - 1)) in *.
    assert (Hh : (0 <= h < nbins)%Z) by lia.
    cbn [fill]. rewrite E. cbn [bind].
    rewrite (aget_ok bins h 0%N) by lia. cbn [bind].
    assert (Hb : (nth (Z.to_nat h) bins 0 <= nsum bins)%N) by apply nth_le_nsum.
    cbn [length] in Hs.
    unfold add32. rewrite w32_small by lia.
    rewrite aset_ok by lia. cbn [bind].
    set (b := (nth (Z.to_nat h) bins 0 + 1)%N).
    assert (Sb : (nsum (set_nth bins (Z.to_nat h) b) = nsum bins + 1)%N).
    { pose proof (nsum_set_nth bins (Z.to_nat h) b ltac:(lia)). subst b. lia. }
    destruct (IH (set_nth bins (Z.to_nat h) b) (if (binmax <? b)%N then b else binmax)) as
      (bins' & binmax' & E1 & L1 & S1 & C1 & M1 & X1); auto.
    + intros q I. apply Hp. right. exact I.
    + rewrite set_nth_length. exact Hl.
    + lia.
    + intro k. destruct (Nat.eq_dec (Z.to_nat h) k) as [<-|Nk].
      * rewrite set_nth_same by lia. destruct (N.ltb_spec binmax b); lia.
      * rewrite set_nth_other by auto. specialize (Hm k). destruct (N.ltb_spec binmax b); lia.
    + exists bins', binmax'. split; [exact E1|]. split; [exact L1|]. split; [cbn [length]; lia|]. split; [|split].
      * intros k Hk. rewrite (C1 k Hk). cbn [count].
        assert (Ei : in_bin nbins k p = (h =? Z.of_nat k)%Z) by (unfold in_bin; rewrite E; reflexivity).
        rewrite Ei. destruct (Z.eqb_spec h (Z.of_nat k)) as [Ek|Ek].
        -- replace (Z.to_nat h) with k by lia. rewrite set_nth_same by lia. subst b.
           replace (Z.to_nat h) with k by lia. lia.
        -- rewrite set_nth_other by lia. lia.
      * exact M1.
      * assert (b <= nsum (set_nth bins (Z.to_nat h) b))%N by (subst b; lia).
        destruct (N.ltb_spec binmax b); lia.
Qed.
