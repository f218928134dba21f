(** Kuiper's statistic and the Kolmogorov series. *)
From Coq Require Import ZArith Reals Lra Lia List Permutation Sorted Bool.
From Flocq Require Import Core IEEE754.BinarySingleNaN.
From Verif Require Import KsModel KsSpec KsSpec2 KsLemmas KsLemmas2 KsLemmas5 KsReals DoubleLemmas DoubleLemmas2 DoubleLemmas3 SphereLemmas SphereLemmas2.
Import ListNotations.
Open Scope R_scope.

(** ** The largest excursions at the points k/n *)
Fixpoint hi_from (i n : R) (s : list R) (m : R) : R :=
  match s with [] => m | p :: s => hi_from (i + 1) n s (Rmax m (p - i / n)) end.
Fixpoint lo_from (i n : R) (s : list R) (m : R) : R :=
  match s with [] => m | p :: s => lo_from (i + 1) n s (Rmax m (i / n - p)) end.
Lemma hi_ge : forall s i n m, m <= hi_from i n s m.
Proof. induction s as [|p s IH]; intros i n m; cbn [hi_from]; [lra|]. eapply Rle_trans; [|apply IH]. apply Rmax_l. Qed.
Lemma lo_ge : forall s i n m, m <= lo_from i n s m.
Proof. induction s as [|p s IH]; intros i n m; cbn [lo_from]; [lra|]. eapply Rle_trans; [|apply IH]. apply Rmax_l. Qed.
Lemma hi_each : forall s i n m k, (k < length s)%nat -> nth k s 0 - (i + INR k) / n <= hi_from i n s m.
Proof.
  induction s as [|p s IH]; intros i n m k L; cbn [length] in L; [lia|]. cbn [hi_from]. destruct k as [|k].
  - cbn [nth INR]. rewrite Rplus_0_r. eapply Rle_trans; [|apply hi_ge]. apply Rmax_r.
  - cbn [nth]. rewrite S_INR. replace (i + (INR k + 1)) with (i + 1 + INR k) by ring. apply IH. lia.
Qed.
Lemma lo_each : forall s i n m k, (k < length s)%nat -> (i + INR k) / n - nth k s 0 <= lo_from i n s m.
Proof.
  induction s as [|p s IH]; intros i n m k L; cbn [length] in L; [lia|]. cbn [lo_from]. destruct k as [|k].
  - cbn [nth INR]. rewrite Rplus_0_r. eapply Rle_trans; [|apply lo_ge]. apply Rmax_r.
  - cbn [nth]. rewrite S_INR. replace (i + (INR k + 1)) with (i + 1 + INR k) by ring. apply IH. lia.
Qed.
Lemma hi_lub : forall s i n m v, m <= v -> (forall k, (k < length s)%nat -> nth k s 0 - (i + INR k) / n <= v) -> hi_from i n s m <= v.
Proof.
  induction s as [|p s IH]; intros i n m v M H; cbn [hi_from]; [exact M|]. apply IH.
  - apply Rmax_lub; [exact M|]. specialize (H 0%nat). cbn [nth INR length] in H. rewrite Rplus_0_r in H. apply H. lia.
  - intros k L. specialize (H (S k)). cbn [nth length] in H. rewrite S_INR in H.
    replace (i + 1 + INR k) with (i + (INR k + 1)) by ring. apply H. lia.
Qed.
Lemma lo_lub : forall s i n m v, m <= v -> (forall k, (k < length s)%nat -> (i + INR k) / n - nth k s 0 <= v) -> lo_from i n s m <= v.
Proof.
  induction s as [|p s IH]; intros i n m v M H; cbn [lo_from]; [exact M|]. apply IH.
  - apply Rmax_lub; [exact M|]. specialize (H 0%nat). cbn [nth INR length] in H. rewrite Rplus_0_r in H. apply H. lia.
  - intros k L. specialize (H (S k)). cbn [nth length] in H. rewrite S_INR in H.
    replace (i + 1 + INR k) with (i + (INR k + 1)) by ring. apply H. lia.
Qed.

Section Kuiper.
Variables (l s : list R) (above below : R).
Hypothesis P : Permutation l s.
Hypothesis S : StronglySorted Rle s.
Hypothesis B : Forall (fun p => 0 <= p <= 1) s.
Hypothesis N : l <> [].
Hypothesis HA : is_lub (fun v => exists x, 0 <= x <= 1 /\ v = at_most l x - x) above.
Hypothesis HB : is_lub (fun v => exists x, 0 <= x <= 1 /\ v = x - at_most l x) below.
Notation n := (INR (length l)).
Let NP : 0 < n. Proof. clear - N. destruct l as [|a l0]; [now destruct N|]. cbn [length]. rewrite S_INR. pose proof (pos_INR (length l0)). lra. Qed.
Let at_val x : at_most l x = INR (cnt s x) / n := at_val l s P x.
Let len : length s = length l := len l s P.
Lemma A_ge x : 0 <= x <= 1 -> INR (cnt s x) / n - x <= above.
Proof. intro H. apply HA. exists x. now rewrite at_val. Qed.
Lemma B_ge x : 0 <= x <= 1 -> x - INR (cnt s x) / n <= below.
Proof. intro H. apply HB. exists x. now rewrite at_val. Qed.
Lemma all_at_one : cnt s 1 = length s.
Proof.
  apply Nat.le_antisymm; [apply cnt_le|]. apply Nat.nlt_ge. intro L.
  assert (I : (length s - 1 < length s)%nat) by lia. pose proof (nth_range s B _ I) as R.
  pose proof (proj1 (cnt_nth s 1 S _ I) (proj2 R)). lia.
Qed.
Lemma A_pos : 0 <= above.
Proof.
  pose proof (A_ge 1 ltac:(lra)) as H. rewrite all_at_one, len in H. replace (n / n) with 1 in H by (field; lra). lra.
Qed.
Lemma B_pos : 0 <= below.
Proof.
  pose proof (B_ge 1 ltac:(lra)) as H. rewrite all_at_one, len in H. replace (n / n) with 1 in H by (field; lra). lra.
Qed.
Lemma above_each k : (k < length s)%nat -> (INR k + 1) / n - nth k s 0 <= above.
Proof.
  intro L. pose proof (A_ge (nth k s 0) (nth_range s B k L)) as H.
  assert (C : (k < cnt s (nth k s 0%R))%nat) by (apply cnt_nth; auto; lra).
  pose proof (frac (INR k + 1) (INR (cnt s (nth k s 0))) n NP) as F. rewrite <- S_INR in F |- *.
  specialize (F ltac:(apply le_INR; lia)). lra.
Qed.
Lemma below_each k : (k < length s)%nat -> nth k s 0 - INR k / n <= below.
Proof.
  intro L. apply Rnot_lt_le. intro H. pose proof (nth_range s B k L) as R. pose proof B_pos as D0.
  assert (K0 : 0 <= INR k / n). { apply Rmult_le_pos; [apply pos_INR|]. apply Rlt_le, Rinv_0_lt_compat, NP. }
  set (x := (nth k s 0 + INR k / n + below) / 2). assert (X : 0 <= x <= 1) by (unfold x; lra).
  pose proof (B_ge x X) as G.
  assert (C : (cnt s x <= k)%nat). { apply Nat.nlt_ge. intro C. apply cnt_nth in C; auto. unfold x in C. lra. }
  pose proof (frac (INR (cnt s x)) (INR k) n NP ltac:(apply le_INR; lia)) as F. unfold x in *. lra.
Qed.
Lemma hi_below : hi_from 0 n s 0 = below.
Proof.
  apply Rle_antisym.
  - apply hi_lub; [apply B_pos|]. intros k L. rewrite Rplus_0_l. now apply below_each.
  - apply HB. intros v (x & X & ->). rewrite at_val. pose proof (cnt_le s x) as CL.
    destruct (Nat.eq_dec (cnt s x) (length s)) as [E|E].
    + rewrite E, len. replace (n / n) with 1 by (field; lra). pose proof (hi_ge s 0 n 0). lra.
    + assert (L : (cnt s x < length s)%nat) by lia. pose proof (hi_each s 0 n 0 _ L) as H. rewrite Rplus_0_l in H.
      assert (x < nth (cnt s x) s 0). { apply Rnot_le_lt. intro G. apply cnt_nth in G; auto. lia. } lra.
Qed.
Lemma lo_above : above - 1 / n <= lo_from 0 n s 0 <= above.
Proof.
  assert (I : 0 < 1 / n) by (apply Rdiv_lt_0_compat; lra).
  assert (Q : forall k, (INR k + 1) / n = INR k / n + 1 / n) by (intro k; field; lra). split.
  - cut (above <= lo_from 0 n s 0 + 1 / n); [lra|].
    apply HA. intros v (x & X & ->). rewrite at_val. pose proof (cnt_le s x) as CL. pose proof (lo_ge s 0 n 0) as G0.
    destruct (cnt s x) as [|k] eqn:E; [cbn [INR]; replace (0 / n) with 0 by (field; lra); lra|].
    assert (L : (k < length s)%nat) by lia. pose proof (lo_each s 0 n 0 k L) as H. rewrite Rplus_0_l in H. rewrite S_INR, Q.
    assert (nth k s 0 <= x) by (apply cnt_nth; auto; lia). lra.
  - apply lo_lub; [apply A_pos|]. intros k L. rewrite Rplus_0_l. pose proof (above_each k L) as H. rewrite Q in H. lra.
Qed.
End Kuiper.

(** ** The loop with doubles *)
Definition step_pos (i count : Z) : double := ddiv (d_of_Z i) (d_of_Z count).
Lemma step_val p i count : (0 <= i < count)%Z -> (count <= 2147483647)%Z -> pvalue_ok p ->
  is_finite (dsub p (step_pos i count)) = true /\ -1 <= B2R (dsub p (step_pos i count)) <= 1 /\
  Rabs (B2R (dsub p (step_pos i count)) - (B2R p - IZR i / IZR count)) <= / 4503599627370496.
Proof.
  intros I C (F & R). unfold step_pos.
  destruct (d_of_Z_val i) as (Fi & Vi & _); [lia|]. destruct (d_of_Z_val count) as (Fn & Vn & _); [lia|].
  assert (Ri : 0 <= IZR i <= IZR count) by (split; apply IZR_le; lia). assert (Rn : 1 <= IZR count) by (apply IZR_le; lia).
  assert (Q : 0 <= IZR i / IZR count <= 1).
  { split; [apply Rmult_le_pos; [lra|]; apply Rlt_le, Rinv_0_lt_compat; lra|].
    apply Rmult_le_reg_r with (IZR count); [lra|]. unfold Rdiv. rewrite Rmult_assoc, Rinv_l by lra. lra. }
  destruct (ddiv_mod (d_of_Z i) (d_of_Z count) Fi) as (Fq & Vq); [rewrite Vn; lra|apply moderate_le; rewrite Vi, Vn; lra|].
  rewrite Vi, Vn in Vq. set (q := ddiv (d_of_Z i) (d_of_Z count)) in *. clearbody q.
  assert (Rq : 0 <= B2R q <= 1).
  { rewrite Vq. split; [rewrite <- rnd_zero; apply rnd_le; lra|]. apply Rle_trans with (rnd 1); [apply rnd_le; lra|rewrite rnd_one; lra]. }
  assert (Eq : Rabs (B2R q - IZR i / IZR count) <= / 9007199254740992) by (rewrite Vq; apply rnd_err; rewrite Rabs_pos_eq; lra).
  destruct (dsub_mod p q F Fq) as (Fs & Vs); [apply moderate_le; lra|]. split; [exact Fs|]. rewrite Vs.
  assert (A : Rabs (B2R p - B2R q) <= 1) by (apply Rabs_le; lra). pose proof (rnd_err _ A) as E. split.
  - apply Rabs_le_inv in A. split.
    + apply Rle_trans with (rnd (-(1))); [rewrite rnd_opp, rnd_one; lra|apply rnd_le; lra].
    + apply Rle_trans with (rnd 1); [apply rnd_le; lra|rewrite rnd_one; lra].
  - apply Rabs_le_inv in E. apply Rabs_le_inv in Eq. apply Rabs_le. lra.
Qed.
Lemma v_loop_ok dpow dexp : forall pv i count (a b : double) ra rb, (0 <= i)%Z -> (i + Z.of_nat (length pv) <= count)%Z -> (count <= 2147483647)%Z ->
  Forall pvalue_ok pv -> is_finite a = true -> is_finite b = true -> 0 <= B2R a <= 1 -> -1 <= B2R b <= 0 -> 0 <= ra -> 0 <= rb ->
  Rabs (B2R a - ra) <= / 4503599627370496 -> Rabs (- B2R b - rb) <= / 4503599627370496 ->
  exists a' b', v_loop (doubles dpow dexp) i count pv a b = (a', b') /\ is_finite a' = true /\ is_finite b' = true /\
    0 <= B2R a' <= 1 /\ -1 <= B2R b' <= 0 /\
    Rabs (B2R a' - hi_from (IZR i) (IZR count) (map (@B2R 53 1024) pv) ra) <= / 4503599627370496 /\
    Rabs (- B2R b' - lo_from (IZR i) (IZR count) (map (@B2R 53 1024) pv) rb) <= / 4503599627370496.
Proof.
  induction pv as [|p pv IH]; intros i count a b ra rb I L C F Fa Fb Ra Rb Na Nb Ea Eb.
  { exists a, b. cbn. auto 10. }
  inversion F; subst. cbn [length] in L. cbn [v_loop map hi_from lo_from].
  change (nsub (doubles dpow dexp) p (ndiv (doubles dpow dexp) (nint (doubles dpow dexp) i) (nint (doubles dpow dexp) count))) with (dsub p (step_pos i count)).
  destruct (step_val p i count) as (Fv & Rv & Ev); auto; try lia. set (v := dsub p (step_pos i count)) in *. clearbody v.
  replace (IZR i + 1) with (IZR (i + 1)) by apply plus_IZR. set (y := B2R p - IZR i / IZR count) in *.
  replace (IZR i / IZR count - B2R p) with (- y) by (unfold y; ring). clearbody y.
  change (ngt (doubles dpow dexp) v a) with (dlt a v). change (ngt (doubles dpow dexp) b v) with (dlt v b).
  assert (Na' : 0 <= Rmax ra y) by (eapply Rle_trans; [exact Na|apply Rmax_l]).
  assert (Nb' : 0 <= Rmax rb (- y)) by (eapply Rle_trans; [exact Nb|apply Rmax_l]).
  apply Rabs_le_inv in Ea. apply Rabs_le_inv in Eb. apply Rabs_le_inv in Ev.
  destruct (dlt a v) eqn:G; [|destruct (dlt v b) eqn:G'].
  - apply lt_true in G; auto. apply IH; auto; try lia; try lra; apply Rabs_le; unfold Rmax.
    + destruct (Rle_dec ra y); lra.
    + destruct (Rle_dec rb (- y)); lra.
  - apply lt_false in G; auto. apply lt_true in G'; auto. apply IH; auto; try lia; try lra; apply Rabs_le; unfold Rmax.
    + destruct (Rle_dec ra y); lra.
    + destruct (Rle_dec rb (- y)); lra.
  - apply lt_false in G; auto. apply lt_false in G'; auto. apply IH; auto; try lia; try lra; apply Rabs_le; unfold Rmax.
    + destruct (Rle_dec ra y); lra.
    + destruct (Rle_dec rb (- y)); lra.
Qed.

(** ** The series *)
Lemma q_loop_real kappa : forall n i q, (0 <= i)%Z ->
  q_loop reals n (i + 1) (if Z.even i then -1 else 1) kappa q =
  q + rsum n (fun k => (-1) ^ (Z.to_nat i + k) * exp (kappa * (IZR i + INR k + 1) * (IZR i + INR k + 1))).
Proof.
  induction n as [|n IH]; intros i q I; cbn [q_loop rsum]; [change (num reals) with R in *; ring|].
  change (num reals) with R in *. change (nadd reals) with Rplus in *. change (nmul reals) with Rmult in *. change (nint reals) with IZR in *. change (nexp reals) with exp in *.
  replace (- (if Z.even i then -1 else 1))%Z with (if Z.even (i + 1) then -1 else 1)%Z by (rewrite Z.even_add; destruct (Z.even i); reflexivity).
  rewrite IH by lia.
  assert (SG : IZR (if Z.even (i + 1) then -1 else 1) = (-1) ^ Z.to_nat i).
  { rewrite Z.even_add. rewrite <- (Z2Nat.id i) at 1 by exact I. generalize (Z.to_nat i). intro m. clear.
    induction m as [|m IHm]; [reflexivity|]. rewrite Nat2Z.inj_succ, <- Z.add_1_r, Z.even_add. cbn [pow]. rewrite <- IHm.
    destruct (Z.even (Z.of_nat m)); cbn; lra. }
  rewrite SG. rewrite plus_IZR.
  assert (SH : rsum (S n) (fun k => (-1) ^ (Z.to_nat i + k) * exp (kappa * (IZR i + INR k + 1) * (IZR i + INR k + 1))) =
    (-1) ^ Z.to_nat i * exp (kappa * (IZR i + 1) * (IZR i + 1)) +
    rsum n (fun k => (-1) ^ (Z.to_nat (i + 1) + k) * exp (kappa * (IZR i + 1 + INR k + 1) * (IZR i + 1 + INR k + 1)))).
  { assert (shift : forall n f, rsum (S n) f = f 0%nat + rsum n (fun k => f (S k))).
    { clear. induction n as [|n IH]; intro f; [cbn; ring|]. change (rsum (S (S n)) f) with (rsum (S n) f + f (S n)). rewrite IH. cbn [rsum]. ring. }
    rewrite shift. f_equal; [rewrite Nat.add_0_r; cbn [INR]; now rewrite Rplus_0_r|].
    apply rsum_ext. intros k _. rewrite S_INR. replace (Z.to_nat (i + 1) + k)%nat with (Z.to_nat i + S k)%nat by lia.
    f_equal. f_equal. ring. }
  cbn [rsum] in SH. rewrite SH. ring.
Qed.
Definition term (x : R) (i : nat) : R := exp (- 2 * (INR i + 1) ^ 2 * x ^ 2).
Lemma rsum_sum n f : rsum (S n) f = sum_f_R0 f n.
Proof. induction n as [|n IH]; [cbn; ring|]. change (rsum (S (S n)) f) with (rsum (S n) f + f (S n)). rewrite IH. reflexivity. Qed.
Lemma q_ks_series x : q_ks reals x = 2 * sum_f_R0 (tg_alt (term x)) 98.
Proof.
  unfold q_ks. change (nmul reals) with Rmult. change (nint reals) with IZR. change (nneg reals) with Ropp. f_equal.
  change 1%Z with (0 + 1)%Z at 1. rewrite (q_loop_real _ 99 0 (IZR 0) ltac:(lia)). rewrite Rplus_0_l, rsum_sum.
  apply sum_eq. intros i _. unfold tg_alt, term. cbn [Z.to_nat Nat.add]. f_equal. f_equal. ring.
Qed.
Section Series.
Variable x : R.
Hypothesis X : 0 < x.
Let X2 : 0 < x ^ 2. Proof. apply pow_lt, X. Qed.
Lemma term_dec : Un_decreasing (term x).
Proof.
  intro i. unfold term. rewrite S_INR. destruct (Req_dec 0 0) as [_|]; [|lra]. apply Rlt_le, exp_increasing.
  pose proof (pos_INR i). nra.
Qed.
Lemma term_cv : Un_cv (term x) 0.
Proof.
  intros eps E. destruct (archimed (1 / (2 * x ^ 2 * eps))) as (U & _). set (z := Rdefinitions.up _) in *.
  assert (Q : 0 < 1 / (2 * x ^ 2 * eps)) by (apply Rdiv_lt_0_compat; [lra|nra]).
  exists (Z.to_nat z). intros n L. unfold R_dist, term. rewrite Rminus_0_r, Rabs_pos_eq by apply Rlt_le, exp_pos.
  assert (Zp : (0 < z)%Z) by (apply lt_IZR; lra).
  assert (NB : IZR z <= INR n) by (rewrite INR_IZR_INZ; apply IZR_le; lia).
  set (y := 2 * (INR n + 1) ^ 2 * x ^ 2). replace (-2 * (INR n + 1) ^ 2 * x ^ 2) with (- y) by (unfold y; ring).
  assert (Y : 1 / eps < y).
  { unfold y. assert (1 <= INR n + 1) by (pose proof (pos_INR n); lra). apply Rlt_le_trans with (2 * (INR n + 1) * x ^ 2); [|apply Rmult_le_compat_r; [lra|nra]].
    replace (1 / eps) with (2 * (1 / (2 * x ^ 2 * eps)) * x ^ 2) by (field; split; lra).
    apply Rmult_lt_compat_r; [exact X2|lra]. }
  rewrite exp_Ropp. rewrite <- (Rinv_inv eps). apply Rinv_lt_contravar.
  - apply Rmult_lt_0_compat; [apply Rinv_0_lt_compat; lra|apply exp_pos].
  - pose proof (exp_ineq1 y) as EI. replace (/ eps) with (1 / eps) by (field; lra). pose proof (Rdiv_lt_0_compat 1 eps ltac:(lra) E). apply Rlt_trans with (1 + y); [lra|]. apply EI. lra.
Qed.
Lemma q_ks_near : exists l, kolmogorov_tail x l /\ l <= q_ks reals x <= l + 2 * exp (- 20000 * x ^ 2).
Proof.
  destruct (alternated_series (term x) term_dec term_cv) as (l & CV).
  pose proof (alternated_series_ineq (term x) l 49 term_dec term_cv CV) as (LO & HI).
  exists (2 * l). split.
  - unfold kolmogorov_tail. replace (2 * l / 2) with l by field. exact CV.
  - rewrite q_ks_series. change (2 * 49)%nat with 98%nat in *. cbn [Nat.mul Nat.add] in HI.
    assert (E : sum_f_R0 (tg_alt (term x)) 99 = sum_f_R0 (tg_alt (term x)) 98 - exp (-20000 * x ^ 2)).
    { change 99%nat with (S 98) at 1. cbn [sum_f_R0]. unfold Rminus. f_equal. unfold tg_alt, term.
      replace ((-1) ^ 99) with (-1) by ring. replace (INR 99 + 1) with 100 by (rewrite INR_IZR_INZ; cbn; ring).
      replace (-2 * 100 ^ 2 * x ^ 2) with (-20000 * x ^ 2) by ring. ring. }
    rewrite E in LO. lra.
Qed.
End Series.
