(** Theorem C148: the p-value of the birthday spacings tests. *)
From Coq Require Import Reals Lia Lra.
From Verif Require Export BirthdaysStat VtestLawSpec.
From Verif Require Import BaseLemmas TallyLemmas OpermReal DnaBlock RunsArcs WindowLaw KsReals VtestLaw CrapsLaw2 CountStat PropBirthdays PropChisq.
From Verif Require ChisqSpec.
Open Scope R_scope.

(** gsl_ran_poisson_pdf computes the Poisson law *)
Definition pois (lambda : R) (k : Z) : R := ChisqSpec.poisson lambda (Z.to_nat k).
Lemma lambda_real nms nbits : birthdays_lambda reals nms nbits = INR nms ^ 3 / 2 ^ (nbits + 2).
Proof.
  unfold birthdays_lambda. change (nint reals) with IZR. change (ndiv reals) with Rdiv. change (nmul reals) with Rmult. change (npow reals) with powerRZ. change (num reals) with R.
  rewrite <- INR_IZR_INZ. replace (Z.of_nat nbits + 2)%Z with (Z.of_nat (nbits + 2)) by lia. rewrite <- pow_powerRZ. unfold Rdiv. f_equal. ring.
Qed.
Lemma lambda_pos nms nbits : (0 < nms)%nat -> 0 < INR nms ^ 3 / 2 ^ (nbits + 2).
Proof. intro H. apply lt_INR in H. apply Rdiv_lt_0_compat; [|]; apply pow_lt; cbn in *; lra. Qed.
Lemma pois_pos l k : 0 < l -> 0 < ChisqSpec.poisson l k.
Proof. intro L. unfold ChisqSpec.poisson. apply Rdiv_lt_0_compat; [apply Rmult_lt_0_compat; [apply exp_pos|now apply pow_lt]|apply INR_fact_lt_0]. Qed.

Lemma kmax_stop fuel l n k : INR n * ChisqSpec.poisson l k <= 5 -> birthdays_kmax reals pois (S fuel) l n k = Ok (S k).
Proof.
  intro H. cbn [birthdays_kmax]. change (ngt reals) with (fun x y : R => if Rlt_dec y x then true else false). cbv beta. change (nint reals) with IZR. change (nmul reals) with Rmult. change (num reals) with R.
  unfold pois. rewrite Nat2Z.id, <- INR_IZR_INZ. destruct (Rlt_dec _ _); [lra|reflexivity].
Qed.
Lemma kmax_go fuel l n k : 5 < INR n * ChisqSpec.poisson l k -> birthdays_kmax reals pois (S fuel) l n k = birthdays_kmax reals pois fuel l n (S k).
Proof.
  intro H. cbn [birthdays_kmax]. change (ngt reals) with (fun x y : R => if Rlt_dec y x then true else false). cbv beta. change (nint reals) with IZR. change (nmul reals) with Rmult. change (num reals) with R.
  unfold pois. rewrite Nat2Z.id, <- INR_IZR_INZ. destruct (Rlt_dec _ _); [reflexivity|contradiction].
Qed.
Lemma kmax_find l n : forall d k, INR n * ChisqSpec.poisson l (k + d) <= 5 ->
  exists K, (k <= K <= k + d)%nat /\ INR n * ChisqSpec.poisson l K <= 5 /\ (forall i, (k <= i < K)%nat -> 5 < INR n * ChisqSpec.poisson l i) /\
    forall fuel, (d < fuel)%nat -> birthdays_kmax reals pois fuel l n k = Ok (S K).
Proof.
  induction d as [|d IH]; intros k H.
  - rewrite Nat.add_0_r in H. exists k. split; [lia|]. split; [exact H|]. split; [intros; lia|]. intros [|fuel] F; [lia|]. now apply kmax_stop.
  - destruct (Rle_dec (INR n * ChisqSpec.poisson l k) 5) as [S5|G].
    + exists k. split; [lia|]. split; [exact S5|]. split; [intros; lia|]. intros [|fuel] F; [lia|]. now apply kmax_stop.
    + apply Rnot_le_lt in G. destruct (IH (S k)) as (K & B & E & M & R0); [now replace (S k + d)%nat with (k + S d)%nat by lia|]. exists K. split; [lia|]. split; [exact E|]. split.
      * intros i I. destruct (Nat.eq_dec i k) as [->|]; [exact G|apply M; lia].
      * intros [|fuel] F; [lia|]. rewrite kmax_go by exact G. apply R0. lia.
Qed.
Lemma pois_small l n : exists d, INR n * ChisqSpec.poisson l (1 + d) <= 5.
Proof.
  set (c := INR n * exp (- l) + 1). assert (C : 0 < c) by (unfold c; pose proof (pos_INR n); pose proof (exp_pos (- l)); nra).
  destruct (cv_speed_pow_fact l (5 / c)) as (m & M); [apply Rdiv_lt_0_compat; lra|]. exists m. specialize (M (1 + m)%nat ltac:(lia)). unfold R_dist in M. rewrite Rminus_0_r in M. apply Rabs_def2 in M. destruct M as (M & M').
  unfold ChisqSpec.poisson. replace (INR n * (exp (- l) * l ^ (1 + m) / INR (fact (1 + m)))) with (INR n * exp (- l) * (l ^ (1 + m) / INR (fact (1 + m)))) by (unfold Rdiv; ring).
  set (x := l ^ (1 + m) / INR (fact (1 + m))) in *. assert (A0 : 0 <= INR n * exp (- l)) by (apply Rmult_le_pos; [apply pos_INR|left; apply exp_pos]).
  apply Rle_trans with (INR n * exp (- l) * (5 / c)); [apply Rmult_le_compat_l; lra|]. apply (Rmult_le_reg_r c); [exact C|]. replace (INR n * exp (- l) * (5 / c) * c) with (5 * (INR n * exp (- l))) by (field; lra). unfold c in *. lra.
Qed.
(** The samples t = 0, 1, ... have ks t repeated spacings, as the program counts
    them (C33). *)
Definition sampled (srt : list N -> list N) (g : nat -> N) (nms c : nat) (ks : list N) : Prop :=
  forall t, (t < length ks)%nat -> birthdays_sample srt g nms (c + nms * t) = Ok (nth t ks 0%N).
(** the numbers of samples with 0, 1, ..., bins-1 repeated spacings *)
Definition histogram (bins : nat) (ks : list N) : list R := map (fun k => INR (N.to_nat (countp (N.eqb (N.of_nat k)) ks))) (seq 0 bins).
Lemma shown_counts js m ks : length js = m -> (forall k, (k < m)%nat -> nth k js 0%N = countp (N.eqb (N.of_nat k)) ks) -> map (fun o => IZR (Z.of_N o)) js = histogram m ks.
Proof.
  intros LJ C. apply nth_ext with (d := 0) (d' := 0); [unfold histogram; rewrite !map_length, seq_length; exact LJ|].
  intros k Hk. rewrite map_length in Hk. unfold histogram.
  rewrite nth_indep with (d' := IZR (Z.of_N 0)) by (rewrite map_length; exact Hk). rewrite (map_nth (fun o => IZR (Z.of_N o))).
  set (f := fun k0 : nat => INR _). rewrite nth_indep with (d' := f 0%nat) by (rewrite map_length, seq_length; lia). rewrite map_nth, seq_nth by lia. unfold f. cbn [Nat.add].
  rewrite C by lia. now rewrite INR_IZR_INZ, N_nat_Z.
Qed.
(** The p-value: Pearson's statistic against the Poisson law with parameter
    m^3/4n, over the bins up to the first one (from 1 on) of at most five expected
    samples, one degree of freedom less than bins. *)
Theorem C148_pvalue : forall Q srt nms nbits n, (0 < nms)%nat -> let lambda := INR nms ^ 3 / (4 * 2 ^ nbits) in
  exists K, (1 <= K)%nat /\ INR n * ChisqSpec.poisson lambda K <= 5 /\ (forall k, (1 <= k < K)%nat -> 5 < INR n * ChisqSpec.poisson lambda k) /\
  exists rounds, forall fuel, (rounds <= fuel)%nat -> forall g c ks, length ks = n -> sampled srt g nms c ks ->
    birthdays_p reals Q pois srt g fuel nms nbits n c = Ok (Q (INR K / 2) (ChisqSpec.pearson (ChisqSpec.against (histogram (S K) ks) (INR n) (ChisqSpec.poisson lambda)) / 2)).
Proof.
  intros Q srt nms nbits n M lambda. destruct (pois_small lambda n) as (d & D). destruct (kmax_find lambda n d 1 D) as (K & B & E & G & R0). exists K. split; [lia|]. split; [exact E|]. split; [exact G|].
  exists (S d). intros fuel F g c ks L S0. unfold birthdays_p. assert (EL : birthdays_lambda reals nms nbits = lambda). { rewrite lambda_real. unfold lambda. rewrite pow_add. f_equal. ring. } rewrite EL.
  change (num reals) with R in *. rewrite R0 by lia. cbn [bind]. destruct (C66_histogram srt g nms (S K) n c ks L) as (js & EB & LJ & C); [intros t T; apply S0; lia|]. rewrite EB. cbn [bind fst].
  pose proof (C105_poisson Q lambda js (N.of_nat n)) as P. change (fun k => ChisqSpec.poisson lambda (Z.to_nat k)) with (pois lambda) in P. change (num reals) with R in *. rewrite LJ in P. rewrite P. clear P. do 2 f_equal.
  - rewrite S_INR. f_equal. ring.
  - do 2 f_equal. rewrite nat_N_Z, <- INR_IZR_INZ. f_equal.
    apply shown_counts; assumption.
Qed.

(** Narrow generators: if fewer than five samples are expected to have one
    repeated spacing, the loop for the number of bins stops at once, and every
    sample with two or more repeated spacings is ignored.  If all have, the
    p-value is the same whatever the generator. *)
Theorem C148_blind_refuted : forall Q srt nms nbits n, (0 < nms)%nat -> (0 < n)%nat -> let lambda := INR nms ^ 3 / (4 * 2 ^ nbits) in
  INR n * ChisqSpec.poisson lambda 1 <= 5 -> forall g c ks fuel, (0 < fuel)%nat -> length ks = n -> sampled srt g nms c ks -> Forall (fun k => (2 <= k)%N) ks ->
  birthdays_p reals Q pois srt g fuel nms nbits n c = Ok (Q (1 / 2) (INR n * (ChisqSpec.poisson lambda 0 + ChisqSpec.poisson lambda 1) / 2)).
Proof.
  intros Q srt nms nbits n M NZ lambda E g c ks fuel F L S0 A. destruct fuel as [|fuel]; [lia|]. unfold birthdays_p.
  assert (EL : birthdays_lambda reals nms nbits = lambda). { rewrite lambda_real. unfold lambda. rewrite pow_add. f_equal. ring. } rewrite EL.
  change (num reals) with R in *. rewrite kmax_stop by exact E. cbn [bind]. destruct (C66_histogram srt g nms 2 n c ks L) as (js & EB & LJ & C); [intros t T; apply S0; lia|]. rewrite EB. cbn [bind fst].
  pose proof (C105_poisson Q lambda js (N.of_nat n)) as P. change (fun k => ChisqSpec.poisson lambda (Z.to_nat k)) with (pois lambda) in P. change (num reals) with R in *. rewrite LJ in P. rewrite P. clear P.
  assert (Z0 : forall k, (k < 2)%nat -> nth k js 0%N = 0%N).
  { intros k K. rewrite C by exact K. clear -A K. induction A as [|x l X A IH]; [reflexivity|]. cbn [countp]. rewrite IH. destruct (N.eqb_spec (N.of_nat k) x); [lia|reflexivity]. }
  destruct js as [|j0 [|j1 [|]]]; try discriminate LJ. pose proof (Z0 0%nat ltac:(lia)) as J0. pose proof (Z0 1%nat ltac:(lia)) as J1. cbn [nth] in J0, J1. subst j0 j1.
  pose proof (lambda_pos nms nbits M) as LP. assert (LL : 0 < lambda). { unfold lambda. replace (4 * 2 ^ nbits) with (2 ^ (nbits + 2)) by (rewrite pow_add; ring). exact LP. }
  pose proof (pois_pos lambda 0 LL) as P0. pose proof (pois_pos lambda 1 LL) as P1.
  assert (NP : 0 < INR n) by (now apply lt_0_INR). rewrite nat_N_Z, <- INR_IZR_INZ. do 2 f_equal.
  - cbn [INR]. field.
  - unfold ChisqSpec.pearson, ChisqSpec.total, ChisqSpec.against. cbn [map length seq combine fold_right fst snd Z.of_N].
    set (p0 := ChisqSpec.poisson lambda 0) in *. set (p1 := ChisqSpec.poisson lambda 1) in *. clearbody p0 p1. field. lra.
Qed.
Lemma exp_large x (m : nat) : 0 <= x -> (0 < m)%nat -> (1 + x / INR m) ^ m <= exp x.
Proof.
  intros X M. apply lt_0_INR in M. replace (exp x) with (exp (x / INR m) ^ m).
  - apply pow_incr. assert (0 <= x / INR m) by (apply Rmult_le_pos; [exact X|left; now apply Rinv_0_lt_compat]). split; [lra|]. pose proof (exp_ineq1_le (x / INR m)). lra.
  - rewrite <- Rpower_pow by apply exp_pos. unfold Rpower. rewrite ln_exp. f_equal. field. lra.
Qed.
Lemma one_pois l : ChisqSpec.poisson l 1 = l / exp l.
Proof. unfold ChisqSpec.poisson. rewrite exp_Ropp. cbn [fact Nat.mul Nat.add pow INR]. field. apply Rgt_not_eq, exp_pos. Qed.
Lemma few_eight l : 8 <= l -> INR 100 * ChisqSpec.poisson l 1 <= 5.
Proof.
  intro L. rewrite one_pois. pose proof (exp_large l 8 ltac:(lra) ltac:(lia)) as E. replace (INR 8) with 8 in E by (cbn; lra). replace (INR 100) with 100 by (cbn; lra).
  assert (U : 256 * (l / 8) <= (1 + l / 8) ^ 8).
  { set (u := l / 8). assert (1 <= u) by (unfold u; lra). assert (A : 4 * u <= (1 + u) ^ 2) by nra. assert (B : 2 ^ 6 <= (1 + u) ^ 6) by (apply pow_incr; lra).
    replace ((1 + u) ^ 8) with ((1 + u) ^ 6 * (1 + u) ^ 2) by ring. nra. }
  apply (Rmult_le_reg_r (exp l)); [apply exp_pos|]. replace (100 * (l / exp l) * exp l) with (100 * l) by (field; apply Rgt_not_eq, exp_pos). lra.
Qed.
Lemma ratio (a b : Z) k : (0 < b)%Z -> (4000 * b <= a)%Z -> IZR a = k -> 4000 <= k * / IZR b.
Proof.
  intros B C <-. apply IZR_lt in B. apply IZR_le in C. rewrite mult_IZR in C. apply (Rmult_le_reg_r (IZR b)); [exact B|]. replace (IZR a * / IZR b * IZR b) with (IZR a) by (field; lra). exact C.
Qed.
Lemma power_64 : 4000 <= (1 + 89 / 10 / 64) ^ 64.
Proof.
  assert (E : 1 + 89 / 10 / 64 = IZR 729 * / IZR 640) by lra. rewrite E. clear E. rewrite Rpow_mult_distr. rewrite pow_inv.
  rewrite (pow_IZR 729 64), (pow_IZR 640 64). apply (ratio (729 ^ Z.of_nat 64)). vm_compute; reflexivity. vm_compute; discriminate. reflexivity. 
Qed.
Lemma e_89 : 4000 <= exp (89 / 10).
Proof.
  assert (I : INR 64 = 64) by (cbn; lra). eapply Rle_trans; [exact power_64|]. rewrite <- I. apply exp_large; [lra|lia].
Qed.
Lemma few_nine l : 89 / 10 <= l -> INR 2000 * ChisqSpec.poisson l 1 <= 5.
Proof.
  intro L. rewrite one_pois. pose proof e_89 as E. rewrite INR_IZR_INZ. change (Z.of_nat 2000) with 2000%Z.
  assert (X : 4000 * (l - 79 / 10) <= exp l).
  { replace (exp l) with (exp (89 / 10) * exp (l - 89 / 10)) by (rewrite <- exp_plus; f_equal; ring). pose proof (exp_ineq1_le (l - 89 / 10)) as I. apply Rmult_le_compat; lra. }
  apply (Rmult_le_reg_r (exp l)); [apply exp_pos|]. replace (2000 * (l / exp l) * exp l) with (2000 * l) by (field; apply Rgt_not_eq, exp_pos). lra.
Qed.
Lemma narrow_pow w k : (w <= k)%nat -> 0 < 4 * 2 ^ w <= 4 * 2 ^ k.
Proof. intro H. pose proof (pow_lt 2 w ltac:(lra)). pose proof (Rle_pow 2 w k ltac:(lra) H). lra. Qed.
Lemma over x a b : 0 < b -> x * b <= a -> x <= a / b.
Proof. intros B H. apply (Rmult_le_reg_r b); [exact B|]. replace (a / b * b) with a by (field; lra). exact H. Qed.
(** With the default 100 samples diehard_birthdays is blind for generators of up
    to 22 bits ... *)
Theorem C148_narrow_refuted : forall Q srt w g c ks fuel, (w <= 22)%nat -> (0 < fuel)%nat ->
  length ks = 100%nat -> sampled srt g 512 c ks -> Forall (fun k => (2 <= k)%N) ks -> let lambda := 2 ^ 25 / 2 ^ w in
  diehard_birthdays reals Q pois srt g fuel w 100 c = Ok (Q (1 / 2) (50 * (1 + lambda) / exp lambda)).
Proof.
  intros Q srt w g c ks fuel W F L S0 A lambda. unfold diehard_birthdays. rewrite Nat.min_r by lia.
  assert (E0 : INR 512 ^ 3 / (4 * 2 ^ w) = lambda). { unfold lambda. rewrite INR_IZR_INZ. change (Z.of_nat 512) with 512%Z. replace (512 ^ 3) with (4 * 2 ^ 25) by ring. field. apply pow_nonzero. lra. }
  assert (E8 : 8 <= lambda). { unfold lambda. destruct (narrow_pow w 22 W). apply over; [lra|]. replace (2 ^ 25) with (2 * (4 * 2 ^ 22)) by ring. lra. }
  rewrite (C148_blind_refuted Q srt 512 w 100 ltac:(lia) ltac:(lia)) with (ks := ks); try assumption.
  - rewrite E0. do 2 f_equal. rewrite one_pois. unfold ChisqSpec.poisson. rewrite exp_Ropp. cbn [fact pow INR]. replace (INR 100) with 100 by (cbn; lra). field. apply Rgt_not_eq, exp_pos.
  - rewrite E0. apply few_eight. exact E8.
Qed.
(** ... and dab_birthdays1 with its 2000 samples of 1700 numbers up to 27 bits. *)
Theorem C148_narrow_dab_refuted : forall Q srt w g c ks fuel, (w <= 27)%nat -> (0 < fuel)%nat ->
  length ks = 2000%nat -> sampled srt g 1700 c ks -> Forall (fun k => (2 <= k)%N) ks -> let lambda := 1700 ^ 3 / (4 * 2 ^ w) in
  dab_birthdays1 reals Q pois srt g fuel 0 w 2000 c = Ok (Q (1 / 2) (1000 * (1 + lambda) / exp lambda)).
Proof.
  intros Q srt w g c ks fuel W F L S0 A lambda. unfold dab_birthdays1. change (0 =? 0)%nat with true. cbv iota. rewrite Nat.min_l by lia.
  assert (E0 : INR 1700 ^ 3 / (4 * 2 ^ w) = lambda). { unfold lambda. rewrite (INR_IZR_INZ 1700). change (Z.of_nat 1700) with 1700%Z. reflexivity. }
  assert (E8 : 89 / 10 <= lambda). { unfold lambda. destruct (narrow_pow w 27 W). apply over; [lra|]. replace (2 ^ 27) with 134217728 in * by ring. lra. }
  rewrite (C148_blind_refuted Q srt 1700 w 2000 ltac:(lia) ltac:(lia)) with (ks := ks); try assumption.
  - rewrite E0. do 2 f_equal. rewrite one_pois. unfold ChisqSpec.poisson. rewrite exp_Ropp. cbn [fact pow]. change (INR 1) with 1. rewrite (INR_IZR_INZ 2000). change (Z.of_nat 2000) with 2000%Z. field. apply Rgt_not_eq, exp_pos.
  - rewrite E0. apply few_nine. exact E8.
Qed.
(** The mean of the statistic over all sequences of n samples, when a sample has k
    repeated spacings with probability [cell_share k]: for the Poisson law it is
    the number of bins less the probability of the bins. *)
Lemma bin_mean {B} (omega : list B) n all b p : omega <> [] -> NoDup omega -> lists_samples omega n all -> (0 < n)%nat -> 0 < p ->
  average all (fun l => (VtestLaw.cnt b l - INR n * p) ^ 2 / (INR n * p)) = (VtestLaw.prb omega b * (1 - VtestLaw.prb omega b) + INR n * (VtestLaw.prb omega b - p) ^ 2) / p.
Proof.
  intros NE D A N P. apply lt_0_INR in N. rewrite (average_samples omega n all _ A D).
  rewrite (lsumR_ext _ _ (fun l => / (INR n * p) * ((INR n * p - VtestLaw.cnt b l) * (INR n * p - VtestLaw.cnt b l)))) by (intros; unfold Rdiv; ring).
  rewrite lsumR_scale. unfold Rdiv at 1. rewrite Rmult_assoc. pose proof (square_mean omega NE b n (INR n * p)) as E. unfold Rdiv in E. rewrite E. field. lra.
Qed.
Lemma pearson_against obs n law : ChisqSpec.pearson (ChisqSpec.against obs n law) = lsumR (seq 0 (length obs)) (fun k => (nth k obs 0 - n * law k) ^ 2 / (n * law k)).
Proof.
  unfold ChisqSpec.pearson, ChisqSpec.against.
  assert (H : forall s, ChisqSpec.total (fun b => (fst b - snd b) ^ 2 / snd b) (combine obs (map (fun k => n * law k) (seq s (length obs)))) =
     lsumR (seq s (length obs)) (fun k => (nth (k - s) obs 0 - n * law k) ^ 2 / (n * law k))).
  { induction obs as [|o obs IH]; intro s; [reflexivity|]. cbn [length seq map combine]. unfold ChisqSpec.total, lsumR in *. cbn [fold_right fst snd map]. rewrite Nat.sub_diag. cbn [nth]. apply f_equal.
    rewrite IH. apply (lsumR_ext (seq (S s) (length obs))). intros k K. apply in_seq in K. replace (k - s)%nat with (S (k - S s)) by lia. reflexivity. }
  rewrite H. apply lsumR_ext. intros k _. now rewrite Nat.sub_0_r.
Qed.
Theorem C148_mean : forall {B} (omega : list B) (rep : B -> N) n all bins law, omega <> [] -> NoDup omega -> (0 < n)%nat -> lists_samples omega n all ->
  (forall k, 0 < law k) -> let share := cell_share omega (fun o => N.to_nat (rep o)) in
  average all (fun l => ChisqSpec.pearson (ChisqSpec.against (histogram bins (map rep l)) (INR n) law)) =
  lsumR (seq 0 bins) (fun k => (share k * (1 - share k) + INR n * (share k - law k) ^ 2) / law k).
Proof.
  intros B omega rep n all bins law NE D N A P share.
  rewrite (RunsArcs.average_ext all _ (fun l => lsumR (seq 0 bins) (fun k => (VtestLaw.cnt (fun o => Nat.eqb (N.to_nat (rep o)) k) l - INR n * law k) ^ 2 / (INR n * law k)))).
  - rewrite VtestLaw.average_lsumR. apply lsumR_ext. intros k _. rewrite (bin_mean omega n all _ (law k)) by auto. reflexivity.
  - intros l _. rewrite pearson_against. unfold histogram. rewrite map_length, seq_length. apply lsumR_ext. intros k K. apply in_seq in K.
    set (f := fun k0 : nat => INR _). rewrite nth_indep with (d' := f 0%nat) by (rewrite map_length, seq_length; lia). rewrite map_nth, seq_nth by lia. unfold f. cbn [Nat.add].
    unfold VtestLaw.cnt. rewrite CountStat.countp_filter, VtestLaw.filter_map, map_length. rewrite (filter_ext (fun x => N.eqb (N.of_nat k) (rep x)) (fun o => Nat.eqb (N.to_nat (rep o)) k)); [reflexivity|]. intro o. destruct (N.eqb_spec (N.of_nat k) (rep o)), (Nat.eqb_spec (N.to_nat (rep o)) k); lia.
Qed.
Lemma exp_2 : 5.5 < exp 2 < 13.
Proof.
  split.
  - pose proof (exp_large 2 8 ltac:(lra) ltac:(lia)) as E. replace (INR 8) with 8 in E by (cbn; lra). lra.
  - replace 2 with (1 + 1) by lra. rewrite exp_plus. pose proof exp_le_3. pose proof (exp_pos 1). nra.
Qed.
Lemma pois_2 k : ChisqSpec.poisson 2 k = 2 ^ k / INR (fact k) / exp 2.
Proof. unfold ChisqSpec.poisson. rewrite exp_Ropp. field. split; [apply INR_fact_neq_0|apply Rgt_not_eq, exp_pos]. Qed.
(** From 24 bits on, with 100 samples: lambda is 2, six bins, five degrees of
    freedom. *)
Theorem C148_default : forall Q srt w g c ks fuel, (24 <= w)%nat -> (5 <= fuel)%nat -> length ks = 100%nat -> sampled srt g 512 c ks ->
  diehard_birthdays reals Q pois srt g fuel w 100 c = Ok (Q (5 / 2) (ChisqSpec.pearson (ChisqSpec.against (histogram 6 ks) 100 (ChisqSpec.poisson 2)) / 2)).
Proof.
  intros Q srt w g c ks fuel W F L S0. unfold diehard_birthdays, birthdays_p. rewrite Nat.min_l by lia.
  assert (EL : birthdays_lambda reals 512 24 = 2). { rewrite lambda_real. rewrite INR_IZR_INZ. change (Z.of_nat 512) with 512%Z. cbn [Nat.add]. lra. }
  rewrite EL. assert (KM : birthdays_kmax reals pois fuel 2 100 1 = Ok 6%nat).
  { pose proof exp_2 as (X1 & X2). assert (H100 : INR 100 = 100) by (cbn; lra).
    assert (D : forall x, 5 * exp 2 < x -> 5 < x / exp 2). { intros x X. apply (Rmult_lt_reg_r (exp 2)); [apply exp_pos|]. replace (x / exp 2 * exp 2) with x by (field; apply Rgt_not_eq, exp_pos). exact X. }
    assert (D' : forall x, x <= 5 * exp 2 -> x / exp 2 <= 5). { intros x X. apply (Rmult_le_reg_r (exp 2)); [apply exp_pos|]. replace (x / exp 2 * exp 2) with x by (field; apply Rgt_not_eq, exp_pos). exact X. }
    destruct fuel as [|[|[|[|[|fuel]]]]]; try lia.
    rewrite kmax_go by (rewrite pois_2, H100; replace (100 * (2 ^ 1 / INR (fact 1) / exp 2)) with (200 / exp 2) by (cbn; field; apply Rgt_not_eq, exp_pos); apply D; lra).
    rewrite kmax_go by (rewrite pois_2, H100; replace (100 * (2 ^ 2 / INR (fact 2) / exp 2)) with (200 / exp 2) by (cbn; field; apply Rgt_not_eq, exp_pos); apply D; lra).
    rewrite kmax_go by (rewrite pois_2, H100; replace (100 * (2 ^ 3 / INR (fact 3) / exp 2)) with (400 / 3 / exp 2) by (cbn; field; apply Rgt_not_eq, exp_pos); apply D; lra).
    rewrite kmax_go by (rewrite pois_2, H100; replace (100 * (2 ^ 4 / INR (fact 4) / exp 2)) with (200 / 3 / exp 2) by (cbn; field; apply Rgt_not_eq, exp_pos); apply D; lra).
    apply kmax_stop. rewrite pois_2, H100. replace (100 * (2 ^ 5 / INR (fact 5) / exp 2)) with (80 / 3 / exp 2) by (cbn; field; apply Rgt_not_eq, exp_pos). apply D'. lra. }
  change (num reals) with R in *. rewrite KM. cbn [bind]. destruct (C66_histogram srt g 512 6 100 c ks L) as (js & EB & LJ & C); [intros t T; apply S0; lia|]. rewrite EB. cbn [bind fst].
  pose proof (C105_poisson Q 2 js (N.of_nat 100)) as P. change (fun k => ChisqSpec.poisson 2 (Z.to_nat k)) with (pois 2) in P. change (num reals) with R in *. rewrite LJ in P. rewrite P. clear P.
  rewrite <- (shown_counts js 6 ks LJ C). replace ((INR 6 - 1) / 2) with (5 / 2) by (cbn; lra). reflexivity.
Qed.
(** Three samples of nine days out of 64, each with two repeated spacings, meet
    the hypotheses of C148_blind_refuted; 512 days out of 2^16 that on the number
    of samples. *)
Fixpoint put (x : N) (l : list N) : list N := match l with [] => [x] | y :: r => if (x <=? y)%N then x :: l else y :: put x r end.
Definition insertion_sort (l : list N) : list N := fold_right put [] l.
Definition nine (i : nat) : N := nth (Nat.modulo i 9) [27; 14; 2; 9; 36; 1; 5; 3; 19]%N 0%N.
Example C148_ex : sampled insertion_sort nine 9 0 [2; 2; 2]%N /\ Forall (fun k => (2 <= k)%N) [2; 2; 2]%N /\
  INR 3 * ChisqSpec.poisson (INR 9 ^ 3 / (4 * 2 ^ 6)) 1 <= 5 /\ INR 100 * ChisqSpec.poisson 512 1 <= 5.
Proof.
  split; [|split; [|split]].
  - intros t T. cbn [length] in T. destruct t as [|[|[|t]]]; [| | |lia]; vm_compute; reflexivity.
  - repeat constructor; lia.
  - set (l := INR 9 ^ 3 / (4 * 2 ^ 6)). assert (0 <= l) by (unfold l; cbn; lra). rewrite one_pois. pose proof (exp_ineq1_le l).
    apply (Rmult_le_reg_r (exp l)); [apply exp_pos|]. replace (INR 3 * (l / exp l) * exp l) with (3 * l) by (cbn; field; apply Rgt_not_eq, exp_pos). lra.
  - apply few_eight. lra.
Qed.

Print Assumptions C148_pvalue.
Print Assumptions C148_blind_refuted.
Print Assumptions C148_narrow_refuted.
Print Assumptions C148_narrow_dab_refuted.
Print Assumptions C148_mean.
Print Assumptions C148_default.
