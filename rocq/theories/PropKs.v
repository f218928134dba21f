(** The Kolmogorov-Smirnov test that turns the p-values of a test into its
    verdict (kstest.c): C96 the order of the p-values, C97 the statistic. *)
From Coq Require Import ZArith Reals Lra Lia List Permutation Sorted Bool.
From Flocq Require Import Core IEEE754.BinarySingleNaN.
From Verif Require Import KsModel KsSpec KsLemmas KsLemmas2 DoubleLemmas DoubleLemmas2 BaseLemmas.
Import ListNotations.
Open Scope R_scope.

Section Ks.
Variables (dpow : double -> Z -> double) (dexp : double -> double).
Notation D := (doubles dpow dexp).

(** kstest on a whole array *)
Definition from_dmax (ks_test : N) (count : Z) (dmax : double) : outcome double :=
  if (ks_test =? 0)%N && (count >? 4999)%Z then
    Ok (q_ks D (dmul (dadd (dadd (dsqrt (d_of_Z count)) (d_lit 12 100)) (ddiv (d_lit 11 100) (dsqrt (d_of_Z count)))) dmax))
  else p_ks_new D ks_test count dmax.
Lemma kstest_whole srt ks_test (pv : list double) : (2 <= length pv)%nat ->
  verdict (kstest D srt ks_test pv (Z.of_nat (length pv))) =
  from_dmax ks_test (Z.of_nat (length pv)) (dmax_loop D 1 (Z.of_nat (length pv)) (srt pv) dzero).
Proof.
  intro L. unfold kstest, from_dmax. destruct (Z.ltb_spec (Z.of_nat (length pv)) 1); [lia|].
  destruct (Z.eqb_spec (Z.of_nat (length pv)) 1); [lia|]. rewrite Z.ltb_irrefl, Nat2Z.id, firstn_all.
  change (nint D 0) with dzero. destruct ((ks_test =? 0)%N && (Z.of_nat (length pv) >? 4999)%Z); [reflexivity|].
  cbn zeta. destruct (p_ks_new _ _ _ _); reflexivity.
Qed.

(** C96: the verdict does not depend on the order of the p-values, nor on the
    way the sort treats equal values. *)
Theorem C96_order : forall srt srt' ks_test (pv pv' : list double), sorts srt -> sorts srt' ->
  Forall (fun p => is_finite p = true) pv -> Permutation pv pv' -> (Z.of_nat (length pv) <= 2147483647)%Z ->
  verdict (kstest D srt ks_test pv (Z.of_nat (length pv))) = verdict (kstest D srt' ks_test pv' (Z.of_nat (length pv'))).
Proof.
  intros srt srt' ks pv pv' H H' F P C. pose proof (Permutation_length P) as L.
  destruct (le_lt_dec 2 (length pv)) as [L2|L2].
  - rewrite !kstest_whole by lia. rewrite <- L. f_equal.
    assert (F' : Forall (fun p => is_finite p = true) pv') by (eapply Permutation_Forall; eauto).
    destruct (H pv F) as (P1 & _). destruct (H' pv' F') as (P2 & _).
    apply dmax_same; auto; try lia.
    + apply Permutation_length in P1. unfold double in *. lia.
    + eapply Permutation_Forall; eauto.
    + eapply Permutation_Forall; eauto.
    + apply sorts_same; auto.
  - destruct pv as [|p [|q pv]]; cbn [length] in *; try lia.
    + apply Permutation_nil in P. subst. reflexivity.
    + apply Permutation_length_1_inv in P. subst. reflexivity.
Qed.

(** C97: the verdict is computed from a number [d] that is, up to rounding, the
    largest distance of a sorted p-value p_i from i/(n+1).  It is at most the
    Kolmogorov-Smirnov distance, and smaller by at most 1/(n+1). *)
Theorem C97_bounds : forall srt ks_test (pv : list double), sorts srt -> Forall pvalue_ok pv ->
  (2 <= Z.of_nat (length pv) <= 2147483647)%Z ->
  exists d, is_finite d = true /\ 0 <= B2R d <= 1 /\
    verdict (kstest D srt ks_test pv (Z.of_nat (length pv))) = from_dmax ks_test (Z.of_nat (length pv)) d /\
    (forall m, largest_offset (map (@B2R 53 1024) pv) m -> Rabs (B2R d - m) <= / 2 ^ 52) /\
    (forall dist, ks_distance (map (@B2R 53 1024) pv) dist ->
       dist - 1 / (INR (length pv) + 1) - / 2 ^ 52 <= B2R d <= dist + / 2 ^ 52).
Proof.
  intros srt ks pv H F L.
  assert (Ff : Forall (fun p => is_finite p = true) pv) by (eapply Forall_impl; [|exact F]; intros a A; apply A).
  destruct (H pv Ff) as (P & S). rewrite kstest_whole by lia.
  set (d := dmax_loop D 1 (Z.of_nat (length pv)) (srt pv) dzero). exists d.
  destruct (dmax_ok dpow dexp (srt pv) 1 (Z.of_nat (length pv)) dzero 0) as (Fd & Rd & Ed); auto; try lia.
  - apply Permutation_length in P. unfold double in *. lia.
  - eapply Permutation_Forall; eauto.
  - cbn. lra.
  - cbn. rewrite Rminus_0_r, Rabs_R0. lra.
  - fold d in Fd, Rd, Ed. rewrite <- INR_IZR_INZ in Ed.
    pose proof (Permutation_map (@B2R 53 1024) P) as PR. pose proof (sorted_map _ S) as SR.
    replace (/ 2 ^ 52) with (/ 4503599627370496) by (f_equal; cbn [pow]; ring).
    split; [exact Fd|]. split; [exact Rd|]. split; [reflexivity|]. split.
    + intros m (s & Ps & Ss & ->). rewrite map_length.
      rewrite (sorted_unique s (map (@B2R 53 1024) (srt pv))); auto.
      etransitivity; [symmetry; exact Ps|exact PR].
    + intros dist HD.
      assert (B : Forall (fun p => 0 <= p <= 1) (map (@B2R 53 1024) (srt pv))).
      { apply Forall_map. eapply Permutation_Forall; [exact P|]. eapply Forall_impl; [|exact F]. intros a A. apply A. }
      assert (Ne : map (@B2R 53 1024) pv <> []) by (intro E; apply map_eq_nil in E; subst; cbn in L; lia).
      pose proof (offset_le _ _ dist PR SR B Ne HD) as O1. pose proof (offset_ge _ _ dist PR SR Ne HD) as O2.
      rewrite map_length in O1, O2. apply Rabs_le_inv in Ed. unfold double in *. lra.
Qed.

(** C97 as stated - the verdict is computed from the Kolmogorov-Smirnov
    distance - is false: for 1/4, 1/2, 3/4 the program works with distance 0;
    the distance is 1/4. *)
Definition quarter : double := @B754_finite 53 1024 false 4503599627370496 (-54) eq_refl.
Definition three_quarters : double := @B754_finite 53 1024 false 6755399441055744 (-53) eq_refl.
Definition quarters : list double := [three_quarters; quarter; dhalf].
Lemma quarter_val : B2R quarter = 1 / 4.
Proof. unfold quarter. cbn. unfold F2R. cbn. lra. Qed.
Lemma three_quarters_val : B2R three_quarters = 3 / 4.
Proof. unfold three_quarters. cbn. unfold F2R. cbn. lra. Qed.
Lemma quarters_val : map (@B2R 53 1024) quarters = [3 / 4; 1 / 4; 1 / 2].
Proof. unfold quarters. cbn [map]. rewrite quarter_val, three_quarters_val, dhalf_fin. repeat f_equal. lra. Qed.
Lemma quarters_distance : ks_distance [3 / 4; 1 / 4; 1 / 2] (1 / 4).
Proof.
  assert (V : forall x, at_most [3 / 4; 1 / 4; 1 / 2] x = (if Rle_dec (3 / 4) x then 1 else if Rle_dec (1 / 2) x then 2 / 3 else if Rle_dec (1 / 4) x then 1 / 3 else 0)).
  { intro x. unfold at_most. cbn [filter length].
    destruct (Rle_dec (3 / 4) x), (Rle_dec (1 / 4) x), (Rle_dec (1 / 2) x); try (exfalso; lra); cbn [length INR]; lra. }
  split.
  - intros v (x & X & ->). rewrite V. apply Rabs_le. destruct (Rle_dec (3 / 4) x), (Rle_dec (1 / 2) x), (Rle_dec (1 / 4) x); lra.
  - intros b Hb. apply Rle_trans with (Rabs (at_most [3 / 4; 1 / 4; 1 / 2] (3 / 4) - 3 / 4)).
    + rewrite V. destruct (Rle_dec (3 / 4) (3 / 4)); [|lra]. rewrite Rabs_pos_eq; lra.
    + apply Hb. exists (3 / 4). split; [lra|reflexivity].
Qed.
Theorem C97_refuted : forall srt ks_test, sorts srt -> Forall pvalue_ok quarters /\
  verdict (kstest D srt ks_test quarters 3) = p_ks_new D ks_test 3 dzero /\
  ks_distance (map (@B2R 53 1024) quarters) (1 / 4).
Proof.
  intros srt ks H.
  assert (F : Forall pvalue_ok quarters).
  { unfold quarters. repeat apply Forall_cons; [| | |apply Forall_nil]; (split; [reflexivity|]).
    - rewrite three_quarters_val. lra.
    - rewrite quarter_val. lra.
    - rewrite dhalf_fin. lra. }
  split; [exact F|]. split; [|rewrite quarters_val; apply quarters_distance].
  change 3%Z with (Z.of_nat (length quarters)). rewrite kstest_whole by (cbn; lia).
  unfold from_dmax. change (Z.of_nat (length quarters) >? 4999)%Z with false. rewrite andb_false_r. f_equal.
  assert (Ff : Forall (fun p => is_finite p = true) quarters) by (eapply Forall_impl; [|exact F]; intros a A; apply A).
  destruct (H _ Ff) as (P & S).
  rewrite (dmax_same dpow dexp (srt quarters) [quarter; dhalf; three_quarters]).
  - vm_compute. reflexivity.
  - lia.
  - apply Permutation_length in P. unfold double in *. cbn [quarters length] in *. lia.
  - cbn. lia.
  - eapply Permutation_Forall; eauto.
  - repeat constructor.
  - apply sorted_unique; auto using sorted_map.
    + assert (E : map (@B2R 53 1024) [quarter; dhalf; three_quarters] = [1 / 4; 1 / 2; 3 / 4]).
      { cbn [map]. rewrite quarter_val, three_quarters_val, dhalf_fin. repeat f_equal. lra. }
      rewrite E. repeat constructor; lra.
    + apply Permutation_map. etransitivity; [symmetry; exact P|]. unfold quarters.
      apply (Permutation_cons_append [quarter; dhalf] three_quarters).
Qed.
End Ks.
Print Assumptions C96_order.
Print Assumptions C97_bounds.
Print Assumptions C97_refuted.
