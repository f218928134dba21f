(** Theorems C116, C117, C118: the tables and the statistic of diehard_runs. *)
From Coq Require Import Lia Lra Bool.
From Verif Require Import BaseLemmas.
From Verif Require Export RunsNumbers.
Open Scope R_scope.

Definition all6 (f : nat -> bool) : bool := forallb f (seq 0 6).
Lemma all6_ok f : all6 f = true -> forall i, (i < 6)%nat -> f i = true.
Proof. intros H i Hi. unfold all6 in H. rewrite forallb_forall in H. apply H. apply in_seq. lia. Qed.
Definition e6 (t : list (list Z)) (i j : nat) : Z := nth j (nth i t []) 0%Z.

Lemma b_check : all6 (fun i => Z.eqb (prz (gpat i) * snd (nth i run_b (0, 1)%Z)) (fst (nth i run_b (0, 1)%Z) * f14)) = true.
Proof. vm_compute. reflexivity. Qed.
Lemma shift_check : all6 (fun i => Z.eqb (shiftz i * snd (nth i run_shift (0, 1)%Z)) (fst (nth i run_shift (0, 1)%Z) * f14)) = true.
Proof. vm_compute. reflexivity. Qed.
Lemma cov_check : all6 (fun i => all6 (fun j => Z.eqb (kernz (gpat i) (gpat j)) (4 * e6 run_cov i j))) = true.
Proof. vm_compute. reflexivity. Qed.
Lemma end_check : all6 (fun i => all6 (fun j => Z.eqb (crossz i j + crossz j i + edgez i j) (28 * e6 run_end i j))) = true.
Proof. vm_compute. reflexivity. Qed.
Lemma dens_check : all6 (fun i => Z.ltb 0 (snd (nth i run_b (0, 1)%Z)) && Z.ltb 0 (snd (nth i run_shift (0, 1)%Z))) = true.
Proof. reflexivity. Qed.
Lemma dens i : (i < 6)%nat -> 0 < IZR (snd (nth i run_b (0, 1)%Z)) /\ 0 < IZR (snd (nth i run_shift (0, 1)%Z)).
Proof. intro H. pose proof (all6_ok _ dens_check i H) as D. apply andb_true_iff in D. rewrite !Z.ltb_lt in D. split; apply IZR_lt; tauto. Qed.

Lemma bvec_ok i : (i < 6)%nat -> prob (gpat i) = bvec i.
Proof.
  intro H. rewrite prob_Z by (rewrite gpat_length; lia). pose proof (all6_ok _ b_check i H) as B. apply Z.eqb_eq, (f_equal IZR) in B. rewrite !mult_IZR in B.
  unfold bvec. destruct (dens i H) as (D & _). pose proof f14_pos. set (x := IZR (prz (gpat i))) in *. set (y := IZR (snd _)) in *. set (z := IZR (fst _)) in *. set (f := IZR f14) in *. clearbody x y z f.
  apply (Rmult_eq_reg_r (f * y)); [|nra]. field_simplify; [|lra|lra]. lra.
Qed.
Lemma shift_ok i : (i < 6)%nat -> shift i = Shift i.
Proof.
  intro H. rewrite shift_Z. pose proof (all6_ok _ shift_check i H) as B. apply Z.eqb_eq, (f_equal IZR) in B. rewrite !mult_IZR in B.
  unfold Shift. destruct (dens i H) as (_ & D). pose proof f14_pos. set (x := IZR (shiftz i)) in *. set (y := IZR (snd _)) in *. set (z := IZR (fst _)) in *. set (f := IZR f14) in *. clearbody x y z f.
  apply (Rmult_eq_reg_r (f * y)); [|nra]. field_simplify; [|lra|lra]. lra.
Qed.
Lemma cov_ok i j : (i < 6)%nat -> (j < 6)%nat -> kern (gpat i) (gpat j) = RunCov i j.
Proof.
  intros Hi Hj. rewrite kern_Z by apply gpat_length. pose proof (all6_ok _ (all6_ok _ cov_check i Hi) j Hj) as B. apply Z.eqb_eq in B. rewrite B, mult_IZR.
  unfold RunCov, entry6, f14. fold (e6 run_cov i j). generalize (IZR (e6 run_cov i j)). intro x. field.
Qed.
Lemma end_ok i j : (i < 6)%nat -> (j < 6)%nat -> cross i j + cross j i + edge i j = RunEnd i j.
Proof.
  intros Hi Hj. rewrite !cross_Z, edge_Z. pose proof (all6_ok _ (all6_ok _ end_check i Hi) j Hj) as B. apply Z.eqb_eq, (f_equal IZR) in B. rewrite !plus_IZR, mult_IZR in B.
  unfold RunEnd, entry6. fold (e6 run_end i j). unfold f14.
  set (x := IZR (crossz i j)) in *. set (y := IZR (crossz j i)) in *. set (z := IZR (edgez i j)) in *. set (w := IZR (e6 run_end i j)) in *. clearbody x y z w.
  replace (x / 87178291200 + y / 87178291200 + z / 87178291200) with ((x + y + z) / 87178291200) by field. rewrite B. field.
Qed.

(** ** C116: the expected numbers of runs *)
(** Averaged over all orderings of n numbers, the program counts n b_i runs of
    length i+1 (i = 5: six and more), up to a constant of at most 1/2 that comes
    from the two ends; rising and falling runs alike. *)
Theorem C116_expected : forall (rising : bool) n all i, (13 <= n)%nat -> lists_orderings n all -> (i < 6)%nat ->
  average all (fun pi => runs_of rising n pi i) = INR n * bvec i + Shift i.
Proof.
  intros rising n all i Hn H Hi. rewrite (average_ext all _ (fun pi => U n i (if rising then pi else rev pi))).
  2:{ intros pi I. apply runs_of_U; [lia|now apply H|exact Hi]. }
  assert (E : average all (fun pi => U n i (if rising then pi else rev pi)) = average all (U n i)) by (destruct rising; [reflexivity|apply (average_rev n all (U n i) H)]).
  rewrite E, (avg_U n all H Hn i Hi), bvec_ok, shift_ok by exact Hi. reflexivity.
Qed.
Example C116_ex : bvec 1 = 5 / 24 /\ Shift 1 = - 1 / 6 /\ runs_of true 13 (seq 0 13) 0 = 0 /\ ordering 13 (seq 0 13) /\
  runs_of true 13 [3; 0; 9; 5; 12; 1; 7; 10; 4; 2; 6; 11; 8]%nat 1 = 3.
Proof.
  split; [unfold bvec; cbn; field|]. split; [unfold Shift; cbn; field|]. split; [vm_compute; reflexivity|]. split; [apply Permutation_refl|].
  vm_compute. reflexivity.
Qed.

(** ** C117: the matrix *)
(** Covariances of the numbers of runs: n RunCov + RunEnd. *)
Theorem C117_covariance : forall (rising : bool) n all i j, (13 <= n)%nat -> lists_orderings n all -> (i < 6)%nat -> (j < 6)%nat ->
  average all (fun pi => (runs_of rising n pi i - INR n * bvec i) * (runs_of rising n pi j - INR n * bvec j)) = INR n * RunCov i j + RunEnd i j.
Proof.
  intros rising n all i j Hn H Hi Hj.
  set (f := fun pi => (U n i pi - INR n * prob (gpat i)) * (U n j pi - INR n * prob (gpat j))).
  rewrite (average_ext all _ (fun pi => f (if rising then pi else rev pi))).
  2:{ intros pi I. unfold f. rewrite !bvec_ok, !(runs_of_U rising) by (lia || assumption || now apply H). reflexivity. }
  assert (E : average all (fun pi => f (if rising then pi else rev pi)) = average all f) by (destruct rising; [reflexivity|apply (average_rev n all f H)]).
  rewrite E. unfold f. rewrite (avg_UU n all H Hn i j Hi Hj), cov_ok, end_ok by assumption. reflexivity.
Qed.

(** The inverse of the matrix of covariances, as integers over one denominator. *)
Definition run_inverse : list (list Z) :=
  [[257027906766387721884724140; 513272407027199767310372730; 769942210711946962038789930; 1026627838338329877479046630; 1283320540166060326397062470; 1582800496783104438988744470];
   [513272407027199767310372730; 1026954600963078806473884135; 1540086710718992936195455935; 2053489183410240936269781585; 2566890320059789829085307425; 3165857115576866968943412825];
   [769942210711946962038789930; 1540086710718992936195455935; 2310819500821585557082822935; 3080307075638217349128659385; 3850410090263417936714985225; 4748860799233587493343412225];
   [1026627838338329877479046630; 2053489183410240936269781585; 3080307075638217349128659385; 4109265822001399271295010935; 5133919056920135590998827175; 6331853142832470697515008175];
   [1283320540166060326397062470; 2566890320059789829085307425; 3850410090263417936714985225; 5133919056920135590998827175; 6427285105635301728441875415; 7914840094580446357907230815];
   [1582800496783104438988744470; 3165857115576866968943412825; 4748860799233587493343412225; 6331853142832470697515008175; 7914840094580446357907230815; 9809321849989878463587394215]]%Z.
Definition run_det : Z := 56747149120304915429999.
Lemma inverse_check : all6 (fun i => all6 (fun j => Z.eqb (lsum (seq 0 6) (fun k => e6 run_inverse i k * e6 run_cov k j)%Z) (if Nat.eqb i j then run_det * 21794572800 else 0)%Z)) = true.
Proof. vm_compute. reflexivity. Qed.
Lemma round_check : all6 (fun i => all6 (fun j => Z.leb (2 * Z.abs (e6 run_a i j * run_det - 10 * e6 run_inverse i j)) ((if Z.ltb (e6 run_a i j) 100000 then 1 else 10) * run_det))) = true.
Proof. vm_compute. reflexivity. Qed.
(** The table a is the inverse of the covariance matrix, correctly rounded: to
    integers, or to one decimal if below 10000. *)
Theorem C117_inverse : exists inv : nat -> nat -> R,
  (forall i j, (i < 6)%nat -> (j < 6)%nat -> rsum 6 (fun k => inv i k * RunCov k j) = if Nat.eqb i j then 1 else 0) /\
  (forall i j, (i < 6)%nat -> (j < 6)%nat -> Rabs (Amat i j - inv i j) <= 1 / 2 /\ (Amat i j < 10000 -> Rabs (Amat i j - inv i j) <= 1 / 20)).
Proof.
  exists (fun i j => entry6 run_inverse i j / IZR run_det). split; intros i j Hi Hj.
  - pose proof (all6_ok _ (all6_ok _ inverse_check i Hi) j Hj) as B. apply Z.eqb_eq, (f_equal IZR) in B. rewrite lsum_rsum in B.
    rewrite (rsum_ext 6 _ (fun k => / (IZR run_det * 21794572800) * IZR (e6 run_inverse i k * e6 run_cov k j))).
    + rewrite <- rsum_scale, B. destruct (Nat.eqb i j); [rewrite mult_IZR|]; unfold run_det; field.
    + intros k Hk. unfold RunCov, entry6. fold (e6 run_inverse i k). fold (e6 run_cov k j). rewrite mult_IZR. unfold run_det. field.
  - pose proof (all6_ok _ (all6_ok _ round_check i Hi) j Hj) as B. apply Z.leb_le, IZR_le in B. rewrite !mult_IZR, abs_IZR, minus_IZR, !mult_IZR in B.
    unfold Amat, entry6. fold (e6 run_a i j). fold (e6 run_inverse i j).
    assert (E : Rabs (IZR (e6 run_a i j) / 10 - IZR (e6 run_inverse i j) / IZR run_det) = / (10 * IZR run_det) * Rabs (IZR (e6 run_a i j) * IZR run_det - 10 * IZR (e6 run_inverse i j))).
    { rewrite <- (Rabs_pos_eq (/ (10 * IZR run_det))) by (unfold run_det; apply Rlt_le, Rinv_0_lt_compat; lra). rewrite <- Rabs_mult. f_equal. unfold run_det. field. }
    rewrite E. set (X := Rabs (_ * _ - _)) in *. clearbody X.
    assert (Dp : 0 < IZR run_det) by (unfold run_det; lra).
    assert (Mul : forall c, X <= c * (10 * IZR run_det) -> / (10 * IZR run_det) * X <= c).
    { intros c Hc. apply (Rmult_le_reg_l (10 * IZR run_det)); [lra|]. rewrite <- Rmult_assoc, Rinv_r by lra. lra. }
    split; [apply Mul|intro S; apply Mul].
    + destruct (e6 run_a i j <? 100000)%Z; lra.
    + assert (L : (e6 run_a i j < 100000)%Z) by (apply lt_IZR; lra). apply Z.ltb_lt in L. rewrite L in B. lra.
Qed.
Example C117_ex : Amat 0 0 = 45294 / 10 /\ Amat 5 5 = 172860 /\ RunCov 0 0 = 2784862080 / 21794572800.
Proof. split; [unfold Amat; cbn; lra|]. split; [unfold Amat; cbn; lra|reflexivity]. Qed.

(** ** C118: the statistic *)
Lemma a_ok i j : (i < 6)%nat -> (j < 6)%nat -> a_ reals (Z.of_nat i) (Z.of_nat j) = Ok (Amat i j).
Proof. intros Hi Hj. destruct i as [|[|[|[|[|[|i]]]]]]; [..|lia]; (destruct j as [|[|[|[|[|[|j]]]]]]; [reflexivity..|lia]). Qed.
Lemma b_ok i : (i < 6)%nat -> b_ reals (Z.of_nat i) = Ok (bvec i).
Proof. intros Hi. destruct i as [|[|[|[|[|[|i]]]]]]; [reflexivity..|lia]. Qed.
Lemma runs_stat_sum n c : length c = 6%nat -> runs_stat reals (Z.of_nat n) c =
  Ok (rsum 6 (fun i => rsum 6 (fun j => (IZR (Z.of_N (nth i c 0%N)) - INR n * bvec i) * (IZR (Z.of_N (nth j c 0%N)) - INR n * bvec j) * Amat i j)) / INR n).
Proof.
  intro L. unfold runs_stat.
  rewrite (for_rsum 6 _ (fun i => rsum 6 (fun j => (IZR (Z.of_N (nth i c 0%N)) - INR n * bvec i) * (IZR (Z.of_N (nth j c 0%N)) - INR n * bvec j) * Amat i j))).
  - cbn [bind]. f_equal. rewrite INR_IZR_INZ. cbn. f_equal. ring.
  - intros i s Hi. rewrite (for_rsum 6 _ (fun j => (IZR (Z.of_N (nth i c 0%N)) - INR n * bvec i) * (IZR (Z.of_N (nth j c 0%N)) - INR n * bvec j) * Amat i j)); [reflexivity|].
    intros j t Hj. rewrite !(aget_ok c _ 0%N) by lia. cbn [bind]. rewrite !b_ok, a_ok by assumption. cbn [bind]. rewrite !Nat2Z.id, INR_IZR_INZ. reflexivity.
Qed.
Lemma runs_statistic_sum (rising : bool) n pi : (2 <= n)%nat -> ordering n pi -> runs_statistic rising n pi =
  Ok (rsum 6 (fun i => rsum 6 (fun j => (runs_of rising n pi i - INR n * bvec i) * (runs_of rising n pi j - INR n * bvec j) * Amat i j)) / INR n).
Proof.
  intros Hn O. unfold runs_statistic, runs_of, runs_counted. destruct (count_runs_sum n pi Hn O) as (u & d & E & Lu & Ld & _). rewrite E. cbn [bind fst snd].
  apply runs_stat_sum. now destruct rising.
Qed.

Lemma trace_check : lsum (seq 0 6) (fun i => lsum (seq 0 6) (fun j => e6 run_a i j * e6 run_cov i j)%Z) = (16420650751 * 80)%Z /\
  lsum (seq 0 6) (fun i => lsum (seq 0 6) (fun j => e6 run_a i j * e6 run_end i j)%Z) = (3426216358303 * 100)%Z.
Proof. split; vm_compute; reflexivity. Qed.

(** Averaged over all orderings of n numbers the statistic is 6.0274... +
    11004.35.../n, not 6. *)
Theorem C118_mean : forall (rising : bool) n all, (13 <= n)%nat -> lists_orderings n all ->
  (forall pi, In pi all -> exists v, runs_statistic rising n pi = Ok v) /\
  average all (fun pi => value (runs_statistic rising n pi)) = 16420650751 / 2724321600 + (3426216358303 / 311351040) / INR n.
Proof.
  intros rising n all Hn H. split.
  { intros pi I. rewrite runs_statistic_sum by (lia || now apply H). eauto. }
  rewrite (average_ext all _ (fun pi => / INR n * rsum 6 (fun i => rsum 6 (fun j => Amat i j * ((runs_of rising n pi i - INR n * bvec i) * (runs_of rising n pi j - INR n * bvec j)))))).
  2:{ intros pi I. rewrite runs_statistic_sum by (lia || now apply H). cbn [value]. unfold Rdiv. rewrite Rmult_comm. f_equal. apply rsum_ext. intros i Hi. apply rsum_ext. intros j Hj. ring. }
  rewrite average_scale, average_rsum.
  rewrite (rsum_ext 6 _ (fun i => rsum 6 (fun j => Amat i j * (INR n * RunCov i j + RunEnd i j)))).
  2:{ intros i Hi. rewrite average_rsum. apply rsum_ext. intros j Hj. rewrite average_scale, (C117_covariance rising n all) by assumption. reflexivity. }
  destruct trace_check as (T0 & T1). apply (f_equal IZR) in T0, T1.
  assert (Sp : forall t, IZR (lsum (seq 0 6) (fun i => lsum (seq 0 6) (fun j => e6 run_a i j * e6 t i j)%Z)) = rsum 6 (fun i => rsum 6 (fun j => IZR (e6 run_a i j) * IZR (e6 t i j)))).
  { intro t. rewrite lsum_rsum. apply rsum_ext. intros i _. rewrite lsum_rsum. apply rsum_ext. intros j _. apply mult_IZR. }
  rewrite Sp in T0, T1.
  rewrite (rsum_ext 6 _ (fun i => (INR n / 217945728000) * rsum 6 (fun j => IZR (e6 run_a i j) * IZR (e6 run_cov i j)) + (/ 31135104000) * rsum 6 (fun j => IZR (e6 run_a i j) * IZR (e6 run_end i j)))).
  2:{ intros i Hi. rewrite !rsum_scale, rsum_plus. apply rsum_ext. intros j Hj. unfold Amat, RunCov, RunEnd, entry6. fold (e6 run_a i j). fold (e6 run_cov i j). fold (e6 run_end i j). field. }
  rewrite <- rsum_plus, <- !rsum_scale, T0, T1, !mult_IZR. field. apply not_0_INR. lia.
Qed.
(** So it is never 6; it is 17 for a thousand numbers and above 6.13 for the
    default of a hundred thousand. *)
Theorem C118_mean_refuted : forall (rising : bool) n all, (13 <= n)%nat -> lists_orderings n all ->
  let m := average all (fun pi => value (runs_statistic rising n pi)) in
  6.027 + 11004 / INR n < m < 6.028 + 11005 / INR n /\ ((Z.of_nat n <= 1000)%Z -> 17 < m) /\ ((Z.of_nat n <= 100000)%Z -> 6.13 < m).
Proof.
  intros rising n all Hn H m. unfold m. rewrite (proj2 (C118_mean rising n all Hn H)). clear m.
  assert (P : 13 <= INR n) by (replace 13 with (INR 13) by (cbn; lra); now apply le_INR).
  assert (Ip : 0 < / INR n) by (apply Rinv_0_lt_compat; lra).
  assert (J : forall c, c / INR n = c * / INR n) by reflexivity. rewrite !J. set (x := / INR n) in *.
  split; [split; lra|]. split; intro B.
  - assert (X : / 1000 <= x) by (unfold x; apply Rinv_le_contravar; [lra|]; rewrite INR_IZR_INZ; now apply IZR_le). lra.
  - assert (X : / 100000 <= x) by (unfold x; apply Rinv_le_contravar; [lra|]; rewrite INR_IZR_INZ; now apply IZR_le). lra.
Qed.
Lemma lists_exist n : exists all, lists_orderings n all.
Proof.
  destruct (restricted_count n (fun _ => false) [] (NoDup_nil _)) as (l & N & I & _); [intro x; split; [intros []|intros (_ & K); discriminate]|].
  exists l. split; [exact N|]. intro pi. rewrite I. split; [tauto|]. intro O. split; [exact O|]. clear. induction pi; auto.
Qed.
Example C118_ex : exists all, lists_orderings 1000 all /\ 17 < average all (fun pi => value (runs_statistic true 1000 pi)).
Proof.
  destruct (lists_exist 1000) as (all & H). exists all. split; [exact H|].
  apply (C118_mean_refuted true 1000 all ltac:(lia) H). lia.
Qed.
(** The statistics are compared with chi-square with six degrees of freedom: Q
    is the upper tail of the gamma distribution. *)
Theorem C118_pvalues : forall (Q : R -> R -> R) n pi, (2 <= n)%nat -> ordering n pi ->
  exists u d, runs_statistic true n pi = Ok u /\ runs_statistic false n pi = Ok d /\
    diehard_runs reals Q (results pi 0) (map (results pi) (seq 1 (n - 1))) = Ok (Q (6 / 2) (u / 2), Q (6 / 2) (d / 2)).
Proof.
  intros Q n pi Hn O. unfold diehard_runs, runs_statistic, runs_counted. destruct (count_runs_sum n pi Hn O) as (u & d & E & Lu & Ld & _). rewrite E. cbn [bind fst snd].
  rewrite map_length, seq_length. replace (S (n - 1)) with n by lia. rewrite !runs_stat_sum by assumption. eexists _, _. split; [reflexivity|]. split; [reflexivity|]. cbn [bind].
  unfold runs_p. cbn. replace (6 / 2) with 3 by lra. reflexivity.
Qed.

Print Assumptions C116_expected.
Print Assumptions C117_covariance.
Print Assumptions C117_inverse.
Print Assumptions C118_mean.
Print Assumptions C118_mean_refuted.
Print Assumptions C118_pvalues.
