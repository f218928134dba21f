(** C98: the quick formula; C103: the Kolmogorov series; C104: Kuiper's statistic. *)
From Coq Require Import ZArith Reals Lra Lia List Permutation Sorted Bool.
From Flocq Require Import Core IEEE754.BinarySingleNaN.
From Verif Require Import KsModel KsSpec KsSpec2 KsLemmas KsLemmas2 KsLemmas5 KsLemmas6 KsReals PropKs PropKs2 PropKs3 PropKs4 DoubleLemmas DoubleLemmas2 DoubleLemmas3 SphereLemmas SphereLemmas2 BaseLemmas.
Import ListNotations.
Open Scope R_scope.

(** Where the long computation is not used, the p-value is Marsaglia, Tsang and
    Wang's approximation, and below 1/64. *)
Theorem C98_quick : forall ks_test n d, (1 <= n <= 2147483647)%Z -> ~ long_way ks_test n d ->
  p_ks_new reals ks_test n d = Ok (mtw_quick (Z.to_nat n) d) /\ 0 < mtw_quick (Z.to_nat n) d < 1 / 64.
Proof.
  intros ks n d N W. assert (K : (ks =? 2)%N = false) by (destruct (N.eqb_spec ks 2); [elim W; now left|reflexivity]).
  assert (G : 724 / 100 < d * d * IZR n \/ 376 / 100 < d * d * IZR n /\ (99 < n)%Z).
  { destruct (Rlt_dec (724 / 100) (d * d * IZR n)) as [H|H]; [now left|]. right.
    destruct (Z_le_gt_dec n 99) as [L|L]; [elim W; right; split; [lra|now left]|]. split; [|lia].
    apply Rnot_le_lt. intro L'. apply W. right. split; [lra|now right]. }
  assert (NR : 1 <= IZR n) by (apply IZR_le; lia).
  assert (IN : INR (Z.to_nat n) = IZR n) by (rewrite INR_IZR_INZ, Z2Nat.id by lia; reflexivity).
  split.
  - unfold p_ks_new. cbv zeta. rewrite K. cbn [negb andb].
    change (nmul reals) with Rmult. change (nint reals) with IZR. change (nlit reals 724 100) with (724 / 100). change (nlit reals 376 100) with (376 / 100).
    rewrite !gt_real.
    replace (_ || _)%bool with true.
    + unfold mtw_quick. rewrite IN. change (nneg reals) with Ropp. change (nexp reals) with exp. change (nadd reals) with Rplus.
      change (ndiv reals) with Rdiv. change (nsqrt reals) with sqrt. do 3 f_equal.
      change (nlit reals 2000071 1000000) with (2000071 / 1000000). change (nlit reals 331 1000) with (331 / 1000). change (nlit reals 1409 1000) with (1409 / 1000).
      cbn [pow]. ring.
    + destruct (Rlt_dec (724 / 100) (d * d * IZR n)); [reflexivity|]. destruct G as [G|(G1 & G2)]; [lra|].
      destruct (Rlt_dec (376 / 100) (d * d * IZR n)); [|lra]. destruct (Z.gtb_spec n 99); [reflexivity|lia].
  - unfold mtw_quick. rewrite IN. set (c := 2000071 / 1000000 + 331 / 1000 / sqrt (IZR n) + 1409 / 1000 / IZR n).
    assert (C : 2 <= c).
    { unfold c. assert (0 < 331 / 1000 / sqrt (IZR n)) by (apply Rdiv_lt_0_compat; [lra|apply sqrt_lt_R0; lra]).
      assert (0 < 1409 / 1000 / IZR n) by (apply Rdiv_lt_0_compat; lra). lra. }
    assert (S : 376 / 100 < d * d * IZR n) by (destruct G as [G|(G & _)]; lra).
    replace (- c * IZR n * d ^ 2) with (- (c * (d * d * IZR n))) by ring. set (y := c * (d * d * IZR n)).
    assert (Y : 7 < y) by (unfold y; nra). split; [pose proof (exp_pos (- y)); lra|].
    rewrite exp_Ropp. assert (E : 128 < exp y).
    { apply Rle_lt_trans with (exp 7); [|now apply exp_increasing].
      assert (E1 : 2 <= exp 1) by (pose proof (exp_ineq1 1 ltac:(lra)); lra).
      replace 7 with (1 + (1 + (1 + (1 + (1 + (1 + 1)))))) by ring. rewrite !exp_plus.
      assert (E2 : 4 <= exp 1 * exp 1) by nra. assert (E4 : 16 <= exp 1 * exp 1 * (exp 1 * exp 1)) by nra. nra. }
    apply Rlt_le_trans with (2 * / 128); [|lra].
    apply Rmult_lt_compat_l; [lra|]. apply Rinv_lt_contravar; nra.
Qed.

(** C103: with the default setting and at least 5000 p-values the verdict is
    Kolmogorov's limit distribution at (sqrt n + 0.12 + 0.11 / sqrt n) d, where
    [d] is the statistic, but for a small excess. *)
Theorem C103_series : forall srt (pv : list R) d, sorts_reals srt -> (5000 <= Z.of_nat (length pv) <= 2147483647)%Z ->
  largest_offset pv d -> 0 < d ->
  let root := sqrt (INR (length pv)) in let x := (root + 12 / 100 + 11 / 100 / root) * d in
  exists p l, verdict (kstest reals srt 0 pv (Z.of_nat (length pv))) = Ok p /\ kolmogorov_tail x l /\
    l <= p <= l + 2 * exp (- 20000 * x ^ 2).
Proof.
  intros srt pv d S L (s & Ps & Ss & Ed) D root x. destruct (S pv) as (P1 & S1).
  assert (E : srt pv = s). { apply sorted_unique; auto. transitivity pv; [symmetry; exact P1|exact Ps]. }
  assert (NR : 5000 <= INR (length pv)) by (rewrite INR_IZR_INZ; apply IZR_le; lia).
  assert (X : 0 < x).
  { unfold x. assert (0 < root) by (apply sqrt_lt_R0; lra). assert (0 < 11 / 100 / root) by (apply Rdiv_lt_0_compat; lra).
    apply Rmult_lt_0_compat; lra. }
  destruct (q_ks_near x X) as (l & T & B). exists (q_ks reals x), l. split; [|split; assumption].
  unfold kstest. destruct (Z.ltb_spec (Z.of_nat (length pv)) 1); [lia|]. destruct (Z.eqb_spec (Z.of_nat (length pv)) 1); [lia|].
  change (num reals) with R. rewrite Z.ltb_irrefl, Nat2Z.id. replace (firstn (length pv) pv) with pv by (symmetry; apply firstn_all).
  cbv zeta. rewrite dmax_real. destruct (Z.gtb_spec (Z.of_nat (length pv)) 4999); [|lia]. cbn [N.eqb andb].
  change (nint reals (Z.of_nat (length pv))) with (IZR (Z.of_nat (length pv))).
  change (nint reals 0) with 0. rewrite <- !INR_IZR_INZ, E. change (IZR 1) with 1. rewrite <- Ed.
  cbn [verdict bind fst]. reflexivity.
Qed.

(** ** Kuiper *)
Lemma rnd_err2 x : Rabs x <= 2 -> Rabs (rnd x - x) <= / 4503599627370496.
Proof.
  intro H. unfold rnd.
  pose proof (@error_le_half_ulp radix2 (SpecFloat.fexp 53 1024) (fexp_correct 53 1024 eq_refl) (fun z => negb (Z.even z)) x) as E.
  assert (U : ulp radix2 (SpecFloat.fexp 53 1024) x <= ulp radix2 (SpecFloat.fexp 53 1024) 2).
  { apply ulp_le; [apply fexp_correct; reflexivity|apply fexp_monotone|]. rewrite (Rabs_pos_eq 2) by lra. exact H. }
  assert (U1 : ulp radix2 (SpecFloat.fexp 53 1024) 2 = / 2251799813685248).
  { rewrite ulp_neq_0 by lra. unfold cexp. change 2 with (bpow radix2 1) at 1. rewrite mag_bpow. reflexivity. }
  change (round radix2 (SpecFloat.fexp 53 1024) (Znearest (fun z => negb (Z.even z))) x) with
    (round radix2 (SpecFloat.fexp 53 1024) (round_mode mode_NE) x) in E. rewrite U1 in U. lra.
Qed.
Section Kuiper.
Variable dexp : double -> double.
(** the verdict as a function of the statistic *)
Definition from_v (fuel : nat) (count : Z) (v : double) : outcome double :=
  let root := dsqrt (d_of_Z count) in
  q_ks_kuiper fuel dexp (dmul (dadd (dadd root (d_lit 155 1000)) (ddiv (d_lit 24 100) root)) v) count.
(** C104: the statistic is at most Kuiper's, and smaller by at most 1/n, up to rounding. *)
Theorem C104_bounds : forall srt fuel (pv : list double) V, sorts srt -> Forall pvalue_ok pv ->
  (2 <= Z.of_nat (length pv) <= 2147483647)%Z -> kuiper_distance (map (@B2R 53 1024) pv) V ->
  exists v, is_finite v = true /\ V - 1 / INR (length pv) - / 2 ^ 50 <= B2R v <= V + / 2 ^ 50 /\
    verdict (kstest_kuiper fuel dexp srt pv (Z.of_nat (length pv))) = from_v fuel (Z.of_nat (length pv)) v.
Proof.
  intros srt fuel pv V S F L (above & below & HA & HB & ->).
  assert (Ff : Forall (fun p => is_finite p = true) pv) by (eapply Forall_impl; [|exact F]; intros a A; apply A).
  destruct (S pv Ff) as (P & Ss). pose proof (Permutation_length P) as PL.
  assert (Fs : Forall pvalue_ok (srt pv)) by (eapply Permutation_Forall; eauto).
  assert (B : Forall (fun p => 0 <= p <= 1) (map (@B2R 53 1024) (srt pv))).
  { apply Forall_map. eapply Forall_impl; [|exact Fs]. intros a A. apply A. }
  assert (Ne : map (@B2R 53 1024) pv <> []) by (intro E; apply map_eq_nil in E; subst; cbn in L; lia).
  pose proof (Permutation_map (@B2R 53 1024) P) as PR. pose proof (sorted_map _ Ss) as SR.
  pose proof (hi_below _ _ below PR SR B Ne HB) as HI. pose proof (lo_above _ _ above below PR SR B Ne HA) as LO.
  rewrite map_length in HI, LO. unfold double in *.
  destruct (v_loop_ok (fun x _ => x) dexp (srt pv) 0 (Z.of_nat (length pv)) dzero dzero 0 0) as (a & b & EV & Fa & Fb & Ra & Rb & Ea & Eb); auto; try lia; try lra.
  - unfold double in *. lia.
  - cbn. lra.
  - cbn. lra.
  - cbn. rewrite Rminus_0_r, Rabs_R0. lra.
  - cbn. rewrite Ropp_0, Rminus_0_r, Rabs_R0. lra.
  - rewrite <- INR_IZR_INZ in Ea, Eb. rewrite HI in Ea.
    assert (Va : B2R (dabs a) = B2R a) by (unfold dabs; rewrite B2R_Babs, Rabs_pos_eq; lra).
    assert (Vb : B2R (dabs b) = - B2R b) by (unfold dabs; rewrite B2R_Babs, Rabs_left1; lra).
    destruct (dadd_val (dabs a) (dabs b)) as (Fv & Vv); [unfold dabs; now rewrite is_finite_Babs|unfold dabs; now rewrite is_finite_Babs| |].
    { apply moderate_le. rewrite Va, Vb. lra. }
    exists (dadd (dabs a) (dabs b)). split; [exact Fv|]. split.
    + rewrite Vv, Va, Vb.
      assert (H : Rabs (rnd (B2R a + - B2R b) - (B2R a + - B2R b)) <= / 4503599627370496).
      { apply rnd_err2. apply Rabs_le. lra. }
      apply Rabs_le_inv in H. apply Rabs_le_inv in Ea. apply Rabs_le_inv in Eb.
      replace (/ 2 ^ 50) with (/ 1125899906842624) by (f_equal; ring). lra.
    + unfold kstest_kuiper. destruct (Z.eqb_spec (Z.of_nat (length pv)) 1); [lia|]. destruct (Z.ltb_spec (Z.of_nat (length pv)) 0); [lia|].
      unfold double in *. rewrite Z.ltb_irrefl. cbn [orb]. rewrite Nat2Z.id, firstn_all. cbv zeta. rewrite EV. unfold from_v, verdict. cbv zeta.
      destruct (q_ks_kuiper _ _ _ _); reflexivity.
Qed.
(** The verdict is 2 times the first series less the second one, each summed up
    with doubles until the sum stops changing, if that happens within 65534 terms. *)
Lemma kuiper_q_sum xsq : forall n j fuel, (j <= n)%nat -> (Z.of_nat n < 65535)%Z -> (n - j + 1 < fuel)%nat ->
  deq (fsum (q_term dexp xsq) (Datatypes.S n)) (fsum (q_term dexp xsq) n) = true ->
  (forall k, (j <= k < n)%nat -> deq (fsum (q_term dexp xsq) (Datatypes.S k)) (fsum (q_term dexp xsq) k) = false) ->
  forall q_last, deq (fsum (q_term dexp xsq) j) q_last = false ->
  kuiper_q fuel dexp (N.of_nat j) xsq (fsum (q_term dexp xsq) j) q_last = Ok (fsum (q_term dexp xsq) (Datatypes.S n)).
Proof.
  intros n j fuel. revert j. induction fuel as [|fuel IH]; intros j J B Fu E H ql D; [lia|]. cbn [kuiper_q]. rewrite D.
  assert (M : add32 (N.of_nat j) 1 = N.of_nat (Datatypes.S j)) by (unfold add32, w32; rewrite N.mod_small; change (2 ^ 32)%N with 4294967296%N; lia).
  assert (Q : mul32 (N.of_nat (Datatypes.S j)) (N.of_nat (Datatypes.S j)) = (N.of_nat (Datatypes.S j) * N.of_nat (Datatypes.S j))%N)
    by (unfold mul32, w32; rewrite N.mod_small; [reflexivity|change (2 ^ 32)%N with 4294967296%N; nia]).
  cbv zeta. rewrite M, Q.
  replace (d_of_Z (Z.of_N (N.of_nat (Datatypes.S j) * N.of_nat (Datatypes.S j)))) with (dm2 (Datatypes.S j)) by (unfold dm2; f_equal; lia).
  change (dadd (fsum (q_term dexp xsq) j) (dmul (dsub (dmul (dmul (d_of_Z 4) (dm2 (Datatypes.S j))) xsq) DoubleModel.done) (dexp (dmul (dmul (dopp (d_of_Z 2)) (dm2 (Datatypes.S j))) xsq))))
    with (fsum (q_term dexp xsq) (Datatypes.S j)).
  destruct (Nat.eq_dec j n) as [->|NE].
  - destruct fuel as [|fuel]; [lia|]. cbn [kuiper_q]. now rewrite E.
  - apply IH; auto; try lia; [intros k K; apply H; lia|apply H; lia].
Qed.
Lemma kuiper_p_sum xsq : forall n j fuel, (j <= n)%nat -> (Z.of_nat n < 65535)%Z -> (n - j + 1 < fuel)%nat ->
  deq (fsum (p_term dexp xsq) (Datatypes.S n)) (fsum (p_term dexp xsq) n) = true ->
  (forall k, (j <= k < n)%nat -> deq (fsum (p_term dexp xsq) (Datatypes.S k)) (fsum (p_term dexp xsq) k) = false) ->
  forall q_last, deq (fsum (p_term dexp xsq) j) q_last = false ->
  kuiper_p fuel dexp (N.of_nat j) xsq (fsum (p_term dexp xsq) j) q_last = Ok (fsum (p_term dexp xsq) (Datatypes.S n)).
Proof.
  intros n j fuel. revert j. induction fuel as [|fuel IH]; intros j J B Fu E H ql D; [lia|]. cbn [kuiper_p]. rewrite D.
  assert (M : add32 (N.of_nat j) 1 = N.of_nat (Datatypes.S j)) by (unfold add32, w32; rewrite N.mod_small; change (2 ^ 32)%N with 4294967296%N; lia).
  assert (Q : mul32 (N.of_nat (Datatypes.S j)) (N.of_nat (Datatypes.S j)) = (N.of_nat (Datatypes.S j) * N.of_nat (Datatypes.S j))%N)
    by (unfold mul32, w32; rewrite N.mod_small; [reflexivity|change (2 ^ 32)%N with 4294967296%N; nia]).
  cbv zeta. rewrite M, Q.
  replace (d_of_Z (Z.of_N (N.of_nat (Datatypes.S j) * N.of_nat (Datatypes.S j)))) with (dm2 (Datatypes.S j)) by (unfold dm2; f_equal; lia).
  change (dadd (fsum (p_term dexp xsq) j) (dmul (dmul (dm2 (Datatypes.S j)) (dsub (dmul (dmul (d_of_Z 4) (dm2 (Datatypes.S j))) xsq) (d_of_Z 3))) (dexp (dmul (dmul (dopp (d_of_Z 2)) (dm2 (Datatypes.S j))) xsq))))
    with (fsum (p_term dexp xsq) (Datatypes.S j)).
  destruct (Nat.eq_dec j n) as [->|NE].
  - destruct fuel as [|fuel]; [lia|]. cbn [kuiper_p]. now rewrite E.
  - apply IH; auto; try lia; [intros k K; apply H; lia|apply H; lia].
Qed.
Theorem C104_series : forall fuel x count n m, (Z.of_nat n < 65535)%Z -> (Z.of_nat m < 65535)%Z -> (n + 1 < fuel)%nat -> (m + 1 < fuel)%nat ->
  let x2 := dmul x x in settles (q_term dexp x2) n -> settles (p_term dexp x2) m ->
  q_ks_kuiper fuel dexp x count =
    Ok (dsub (dmul (d_of_Z 2) (fsum (q_term dexp x2) (Datatypes.S n)))
             (ddiv (dmul (dmul (d_of_Z 8) x) (fsum (p_term dexp x2) (Datatypes.S m))) (dmul (d_of_Z 3) (dsqrt (d_of_Z count))))).
Proof.
  intros fuel x count n m N M FN FM x2 (Eq & Hq) (Ep & Hp). unfold q_ks_kuiper. cbv zeta. fold x2.
  rewrite (kuiper_q_sum x2 n 0 fuel) by (auto; try lia; intros; apply Hq; lia). cbn [bind].
  rewrite (kuiper_p_sum x2 m 0 fuel) by (auto; try lia; intros; apply Hp; lia). reflexivity.
Qed.

(** That it is Kuiper's statistic is false: for 0 and 1/2 it is 0, Kuiper's is 1/2. *)
Theorem C104_refuted : forall srt fuel, sorts srt -> let pv := [dzero; dhalf] in
  Forall pvalue_ok pv /\ kuiper_distance (map (@B2R 53 1024) pv) (1 / 2) /\
  verdict (kstest_kuiper fuel dexp srt pv 2) = from_v fuel 2 dzero.
Proof.
  intros srt fuel S pv. assert (Vh : B2R dhalf = / 2) by (unfold dhalf; cbn; unfold F2R; cbn; lra).
  assert (F : Forall pvalue_ok pv).
  { unfold pv. repeat constructor; try (cbn; lra); rewrite Vh; lra. }
  assert (Ff : Forall (fun p => is_finite p = true) pv) by (eapply Forall_impl; [|exact F]; intros a A; apply A).
  split; [exact F|]. split.
  - unfold pv. cbn [map]. rewrite Vh. change (B2R dzero) with 0.
    assert (V : forall x, 0 <= x <= 1 -> at_most [0; / 2] x = if Rle_dec (/ 2) x then 1 else 1 / 2).
    { intros x X. unfold at_most. cbn [filter]. destruct (Rle_dec 0 x); [|lra]. destruct (Rle_dec (/ 2) x); cbn [length INR]; field. }
    exists (1 / 2), 0. split; [|split; [|lra]].
    + split.
      * intros v (x & X & ->). rewrite V by exact X. destruct (Rle_dec (/ 2) x); lra.
      * intros b Hb. apply Hb. exists 0. split; [lra|]. rewrite V by lra. destruct (Rle_dec (/ 2) 0); lra.
    + split.
      * intros v (x & X & ->). rewrite V by exact X. destruct (Rle_dec (/ 2) x); lra.
      * intros b Hb. apply Hb. exists 1. split; [lra|]. rewrite V by lra. destruct (Rle_dec (/ 2) 1); lra.
  - destruct (S pv Ff) as (P & So).
    assert (E : srt pv = pv).
    { apply Permutation_length_2_inv in P. destruct P as [E|E]; [exact E|]. exfalso. rewrite E in So.
      inversion So as [|? ? _ H]; subst. inversion H as [|? ? H' _]; subst. rewrite Vh in H'. cbn in H'. lra. }
    unfold kstest_kuiper. cbn [Z.eqb Z.ltb Z.compare orb length pv Z.of_nat Pos.of_succ_nat Pos.succ]. cbv zeta.
    change (firstn (Z.to_nat 2) pv) with pv. rewrite E.
    assert (EV : v_loop (doubles (fun x _ => x) dexp) 0 2 pv dzero dzero = (dzero, dzero)).
    { apply v_quiet. intros k K. cbn [length pv] in K. destruct k as [|[|k]]; [| |lia]; cbn [nth pv].
      - exists false. apply B2SF_inj. vm_compute. reflexivity.
      - exists false. apply B2SF_inj. vm_compute. reflexivity. }
    rewrite EV. unfold from_v, verdict. cbv zeta.
    change (dadd (dabs dzero) (dabs dzero)) with dzero. destruct (q_ks_kuiper _ _ _ _); reflexivity.
Qed.
End Kuiper.
Example C104_ex : kuiper_distance (map (@B2R 53 1024) [dzero; dhalf]) (1 / 2).
Proof. apply (C104_refuted exp_ex dsort 1 dsort_sorts). Qed.
Example C98_quick_ex : p_ks_new reals 0 100 (1 / 2) = Ok (mtw_quick 100 (1 / 2)).
Proof. apply (C98_quick 0 100 (1 / 2)); [lia|]. intros [H|(H & _)]; [discriminate|lra]. Qed.
(** The promise about the sort of real numbers can be met, and p-values that are
    all 0 have a positive statistic. *)
Fixpoint rinsert (x : R) (l : list R) : list R :=
  match l with [] => [x] | y :: l' => if Rle_dec x y then x :: l else y :: rinsert x l' end.
Lemma rinsert_perm x l : Permutation (x :: l) (rinsert x l).
Proof.
  induction l as [|y l IH]; cbn [rinsert]; [reflexivity|]. destruct (Rle_dec x y); [reflexivity|].
  transitivity (y :: x :: l); [constructor|now constructor].
Qed.
Lemma rinsert_sorted x l : StronglySorted Rle l -> StronglySorted Rle (rinsert x l).
Proof.
  induction 1 as [|y l S IH H]; cbn [rinsert]; [repeat constructor|]. destruct (Rle_dec x y) as [G|G].
  - constructor; [now constructor|]. constructor; [exact G|]. eapply Forall_impl; [|exact H]. intros a A. cbn beta in A. lra.
  - constructor; [exact IH|]. eapply Permutation_Forall; [apply rinsert_perm|]. constructor; [lra|exact H].
Qed.
Example C103_ex : sorts_reals (fold_right rinsert []) /\
  (forall n, (2 <= n)%nat -> exists d, largest_offset (repeat 0 n) d /\ 0 < d).
Proof.
  split.
  - intro l. induction l as [|x l (P & S)]; [split; constructor|]. cbn [fold_right]. split; [|now apply rinsert_sorted].
    transitivity (x :: fold_right rinsert [] l); [now constructor|apply rinsert_perm].
  - intros n N. exists (largest_from 1 (INR n) (repeat 0 n) 0). split.
    + exists (repeat 0 n). split; [reflexivity|]. split; [|now rewrite repeat_length].
      clear. induction n as [|n IH]; cbn [repeat]; constructor; auto. apply Forall_forall. intros x I. apply repeat_spec in I. lra.
    + eapply Rlt_le_trans; [|apply (largest_each (repeat 0 n) 1 (INR n) 0 0); rewrite repeat_length; lia].
      destruct n as [|n]; [lia|]. cbn [repeat nth]. pose proof (pos_INR (S n)). change (INR 0) with 0.
      assert (0 < (1 + 0) / (INR (S n) + 1)) by (apply Rdiv_lt_0_compat; lra). rewrite Rabs_left; lra.
Qed.
Print Assumptions C98_quick.
Print Assumptions C103_series.
(** For x = 1000 both terms vanish when exp returns 0. *)
Example C104_sum_ex : let x2 := dmul (d_of_Z 1000) (d_of_Z 1000) in
  settles (q_term (fun _ => dzero) x2) 0 /\ settles (p_term (fun _ => dzero) x2) 0.
Proof. split; (split; [vm_compute; reflexivity|intros; lia]). Qed.
Print Assumptions C104_bounds.
Print Assumptions C104_series.
Print Assumptions C104_refuted.
