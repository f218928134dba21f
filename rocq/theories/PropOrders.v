(** Theorem C145: the statistic of rgb_permutations under fair bits. *)
From Coq Require Import Lia Lra.
From Verif Require Export OrdersSpec OrdersModel.
From Verif Require Import BaseLemmas TallyLemmas OpermReal OpermAverage RunsArcs WindowLaw VtestArithLemmas VtestLaw VtestVar WordCode CountStat KsReals MissingLaw PropRgb PropVtestLaw VtestVarSpec PropVtestVar OrdersLaw.
From Verif Require DnaLaw.
Open Scope R_scope.

Lemma lookup_length k lookup : lists_permutations k lookup -> length lookup = fact k.
Proof. intros (D & A). apply (all_length k lookup D). exact A. Qed.
Lemma factorial_fact k : factorial k = N.of_nat (fact k).
Proof. induction k as [|k IH]; [reflexivity|]. cbn [factorial]. rewrite IH. change (fact (S k)) with (S k * fact k)%nat. lia. Qed.
Lemma is_table k lookup : lists_permutations k lookup -> all_permutations k lookup.
Proof. intro L. pose proof (lookup_length k lookup L). destruct L as (D & A). split; [exact D|]. split; [|exact A]. rewrite H, factorial_fact. reflexivity. Qed.
Lemma drawn_tuple (L : list (list N)) k : forall t, (forall o, In o L -> length o = k) -> (t < length L)%nat -> tuple (drawn (concat L)) k (k * t) = nth t L [].
Proof.
  assert (G : forall n c l, (c + n <= length l)%nat -> tuple (drawn l) n c = firstn n (skipn c l)).
  { induction n as [|n IH]; intros c l H; [reflexivity|]. cbn [tuple]. rewrite IH by lia. unfold drawn.
    assert (E : skipn c l = nth c l 0%N :: skipn (S c) l).
    { clear IH. revert l H. induction c as [|c IHc]; intros [|x l] H; cbn in H; try lia; [reflexivity|]. cbn [skipn nth]. rewrite IHc by (cbn; lia). reflexivity. }
    rewrite E. reflexivity. }
  assert (CL : forall L : list (list N), (forall o, In o L -> length o = k) -> length (concat L) = (k * length L)%nat).
  { induction L0 as [|o M IH]; intro H; [cbn; lia|]. cbn [concat length]. rewrite app_length, IH, (H o) by (now left || (intros; apply H; now right)). lia. }
  assert (SK : forall (L : list (list N)) t, (forall o, In o L -> length o = k) -> skipn (k * t) (concat L) = concat (skipn t L)).
  { induction L0 as [|o M IH]; intros t H; [cbn [concat]; rewrite !skipn_nil; reflexivity|]. destruct t as [|t]; [now rewrite Nat.mul_0_r|]. cbn [concat skipn].
    rewrite skipn_app, (H o) by now left. replace (k * S t - k)%nat with (k * t)%nat by lia. rewrite IH by (intros; apply H; now right). rewrite skipn_all2; [reflexivity|]. rewrite (H o) by now left. nia. }
  intros t H T. rewrite G by (rewrite CL by exact H; nia). rewrite SK by exact H. revert t T. induction L as [|o M IH]; intros t T; [cbn in T; lia|]. destruct t as [|t].
  - cbn [skipn concat nth]. rewrite firstn_app, (H o) by now left. rewrite Nat.sub_diag. cbn [firstn]. rewrite app_nil_r. apply firstn_all2. rewrite (H o) by now left. lia.
  - cbn [skipn nth]. apply IH; [intros; apply H; now right|cbn in T; lia].
Qed.
Lemma counts_are sort_index lookup k n (L : list (list N)) : sorts_indices sort_index -> lists_permutations (perm_size k) lookup -> (perm_size k <= 12)%nat ->
  length L = n -> (forall o, In o L -> length o = perm_size k) ->
  exists x c, permutations (drawn (concat L)) sort_index lookup k n 0 = Ok (x, c) /\ map (fun a => INR (N.to_nat a)) x = map (fun p => INR (length (filter (has_order sort_index p) L))) lookup.
Proof.
  intros SI LP K LL LO. destruct (C70_permutations (drawn (concat L)) sort_index lookup k n 0 SI K (is_table _ _ LP)) as (x & E & XL & X). exists x. eexists. split; [exact E|].
  apply nth_ext with (d := INR (N.to_nat 0)) (d' := (fun p => INR (length (filter (has_order sort_index p) L))) []); [now rewrite !map_length|]. intros i I. rewrite map_length in I.
  rewrite (map_nth (fun a => INR (N.to_nat a))), (map_nth (fun p => INR (length (filter (has_order sort_index p) L)))). f_equal. rewrite X by lia. rewrite CountStat.countp_filter.
  rewrite (filter_ext_in _ (fun t => has_order sort_index (nth i lookup []) (nth t L []))).
  - rewrite <- (map_length (fun t => nth t L [])). rewrite <- VtestLaw.filter_map. f_equal. f_equal. rewrite <- LL. clear. apply nth_ext with (d := []) (d' := []); [now rewrite map_length, seq_length|].
    intros j J. rewrite map_length, seq_length in J. rewrite (nth_indep _ _ (nth (length L) L [])) by now rewrite map_length, seq_length. rewrite (map_nth (fun t => nth t L [])), seq_nth by exact J. reflexivity.
  - intros t T. apply in_seq in T. unfold has_order. rewrite Nat.add_0_l, (drawn_tuple L (perm_size k) t LO) by lia. reflexivity.
Qed.
Lemma map_pair {X Y Z} (f : X -> Z) (g : Y -> Z) (h : Z -> Z * R) l m : map f l = map g m -> map (fun x => h (f x)) l = map (fun y => h (g y)) m.
Proof. intro E. rewrite <- (map_map f h), E, map_map. reflexivity. Qed.

(** From five samples per order on, every cell is used and the p-value is that of
    Pearson's statistic with k!-1 degrees of freedom. *)
Theorem C145_pvalue : forall Q sort_index lookup ntuple n L, sorts_indices sort_index -> (perm_size ntuple <= 12)%nat ->
  lists_permutations (perm_size ntuple) lookup -> length L = n -> (forall o, In o L -> length o = perm_size ntuple) ->
  (5 * fact (perm_size ntuple) <= n)%nat ->
  rgb_permutations reals Rge_bool Q sort_index lookup (drawn (concat L)) ntuple n 0 =
  Ok (Q ((INR (fact (perm_size ntuple)) - 1) / 2) (orders_chisq sort_index lookup L / 2)).
Proof.
  intros Q sort_index lookup ntuple n L SI K LP LL LO N5. destruct (counts_are sort_index lookup ntuple n L SI LP K LL LO) as (x & c & E & X).
  unfold rgb_permutations. rewrite E. cbn [bind]. pose proof (lookup_length _ _ LP) as LF. set (m := fact (perm_size ntuple)) in *.
  assert (MP : (1 <= m)%nat) by (unfold m; apply lt_O_fact). assert (MR : 0 < INR m) by (apply lt_0_INR; lia).
  assert (C : map (fun a => (of_N reals a, ndiv reals (of_N reals (N.of_nat n)) (of_N reals (factorial (perm_size ntuple))))) x = map (fun p => (INR (length (filter (has_order sort_index p) L)), INR n / INR m)) lookup).
  { rewrite (map_ext _ (fun a => (INR (N.to_nat a), INR n / INR m))).
    - exact (map_pair (fun a => INR (N.to_nat a)) (fun p => INR (length (filter (has_order sort_index p) L))) (fun r => (r, INR n / INR m)) x lookup X).
    - intro a. rewrite !of_N_real, factorial_fact, !Nat2N.id. reflexivity. }
  rewrite C. assert (M12 : (N.of_nat m < 2 ^ 31)%N).
  { assert (F : (m <= fact 12)%nat) by (now apply fact_le). assert (F12 : N.of_nat (fact 12) = 479001600%N) by (rewrite <- factorial_fact; reflexivity). lia. }
  rewrite Vtest_eval_ok by (rewrite map_length, LF; exact M12). cbn [bind]. change (nint reals 5) with 5. rewrite used_all.
  - rewrite map_length, LF. assert (D : sub32 (N.of_nat m) 1 = N.of_nat (m - 1)) by (rewrite sub32_small by lia; lia).
    cbn [N.eqb]. rewrite D, of_N_real, Nat2N.id, minus_INR by exact MP. unfold chisq_ofA. rewrite chisq_sum, VtestLaw.lsumR_map. unfold orders_chisq. rewrite LF, LL.
    change (nint reals 0) with 0. change (nint reals 2) with 2. change (ndiv reals) with Rdiv. change (INR 1) with 1. f_equal. f_equal. f_equal.
    transitivity (0 + lsumR lookup (fun p => (INR (length (filter (has_order sort_index p) L)) - INR n / INR m) ^ 2 / (INR n / INR m))); [|apply Rplus_0_l]. f_equal. apply lsumR_ext. intros p _. unfold pearson. cbn [fst snd]. unfold Rdiv. ring.
  - intros y Y. apply in_map_iff in Y. destruct Y as (p & <- & _). cbn [snd]. apply le_INR in N5. rewrite mult_INR in N5. replace (INR 5) with 5 in N5 by (cbn; lra).
    apply (Rmult_le_reg_r (INR m)); [exact MR|]. replace (INR n / INR m * INR m) with (INR n) by (field; lra). exact N5.
Qed.
(** With fewer, all cells are bundled into one whose count is certain, or dropped:
    the p-value does not depend on the numbers. *)
Theorem C145_few : forall Q sort_index lookup ntuple n L, sorts_indices sort_index -> (perm_size ntuple <= 12)%nat ->
  lists_permutations (perm_size ntuple) lookup -> length L = n -> (forall o, In o L -> length o = perm_size ntuple) ->
  (n < 5 * fact (perm_size ntuple))%nat ->
  rgb_permutations reals Rge_bool Q sort_index lookup (drawn (concat L)) ntuple n 0 = Ok (Q ((if (n <? 5)%nat then 2 ^ 32 - 1 else 0) / 2) (0 / 2)).
Proof.
  intros Q sort_index lookup ntuple n L SI K LP LL LO N5. destruct (counts_are sort_index lookup ntuple n L SI LP K LL LO) as (x & c & E & X).
  unfold rgb_permutations. rewrite E. cbn [bind]. pose proof (lookup_length _ _ LP) as LF. set (m := fact (perm_size ntuple)) in *.
  assert (MP : (1 <= m)%nat) by (unfold m; apply lt_O_fact). assert (MR : 0 < INR m) by (apply lt_0_INR; lia).
  assert (C : map (fun a => (of_N reals a, ndiv reals (of_N reals (N.of_nat n)) (of_N reals (factorial (perm_size ntuple))))) x = map (fun p => (INR (length (filter (has_order sort_index p) L)), INR n / INR m)) lookup).
  { rewrite (map_ext _ (fun a => (INR (N.to_nat a), INR n / INR m))).
    - exact (map_pair (fun a => INR (N.to_nat a)) (fun p => INR (length (filter (has_order sort_index p) L))) (fun r => (r, INR n / INR m)) x lookup X).
    - intro a. rewrite !of_N_real, factorial_fact, !Nat2N.id. reflexivity. }
  rewrite C. assert (M12 : (N.of_nat m < 2 ^ 31)%N).
  { assert (F : (m <= fact 12)%nat) by (now apply fact_le). assert (F12 : N.of_nat (fact 12) = 479001600%N) by (rewrite <- factorial_fact; reflexivity). lia. }
  rewrite Vtest_eval_ok by (rewrite map_length, LF; exact M12). cbn [bind]. change (nint reals 5) with 5.
  set (cells := map (fun p => (INR (length (filter (has_order sort_index p) L)), INR n / INR m)) lookup).
  assert (S : forall c, In c cells -> snd c < 5).
  { intros y Y. apply in_map_iff in Y. destruct Y as (p & <- & _). cbn [snd]. apply lt_INR in N5. rewrite mult_INR in N5. replace (INR 5) with 5 in N5 by (cbn; lra).
    apply (Rmult_lt_reg_r (INR m)); [exact MR|]. replace (INR n / INR m * INR m) with (INR n) by (field; lra). exact N5. }
  assert (T : lsumR cells snd = INR n). { unfold cells. rewrite VtestLaw.lsumR_map. cbn [snd]. rewrite MissingLaw.lsumR_const, LF. field. lra. }
  destruct (Nat.ltb_spec n 5) as [L5|L5].
  - rewrite used_none by (exact S || (rewrite T; apply lt_INR in L5; replace (INR 5) with 5 in L5 by (cbn; lra); exact L5)).
    cbn [length N.eqb]. change (sub32 (N.of_nat 0) 1) with 4294967295%N. unfold chisq_ofA. cbn [fold_left]. unfold of_N. change (nint reals) with IZR. change (ndiv reals) with Rdiv. change (Z.of_N 4294967295) with 4294967295%Z. do 3 f_equal. lra.
  - assert (F : filter (largeA reals Rge_bool 5) cells = [] /\ filter (fun c => negb (largeA reals Rge_bool 5 c)) cells = cells).
    { clear - S. induction cells as [|c cells IH]; [split; reflexivity|]. destruct IH as (I1 & I2); [intros; apply S; now right|]. cbn [filter].
      rewrite (large_no c) by (apply S; now left). cbn [negb]. rewrite I1, I2. now split. }
    destruct F as (F1 & F2).
    assert (B : bundleA reals cells = (INR n, INR n)).
    { unfold bundleA. rewrite !dsum_sum, !VtestLaw.lsumR_map. f_equal; [|exact T]. unfold cells. rewrite VtestLaw.lsumR_map. cbn [fst]. rewrite <- LL. apply (orders_total sort_index SI lookup (perm_size ntuple) LP L LO). }
    assert (U : usedA reals Rge_bool 5 cells = [(INR n, INR n)]).
    { unfold usedA. rewrite F1, F2, B. assert (NE : (length cells =? 0)%nat = false) by (unfold cells; rewrite map_length, LF; apply Nat.eqb_neq; lia). change (num reals) with R. rewrite NE. cbn [negb andb app].
      rewrite (large_yes (INR n, INR n)); [reflexivity|]. cbn [snd]. apply le_INR in L5. replace (INR 5) with 5 in L5 by (cbn; lra). exact L5. }
    rewrite U. cbn [length N.eqb]. change (sub32 (N.of_nat 1) 1) with 0%N. unfold chisq_ofA. rewrite chisq_sum. cbn [lsumR].
    assert (P0 : pearson (INR n, INR n) = 0) by (unfold pearson; cbn [fst snd]; unfold Rdiv; ring). rewrite P0. unfold of_N. change (nint reals) with IZR. change (ndiv reals) with Rdiv. change (Z.of_N 0) with 0%Z.
    do 3 f_equal. rewrite Rplus_0_r. apply Rplus_0_l.
Qed.

Lemma different_ne w k : (N.of_nat k <= 2 ^ w)%N -> different w k <> [].
Proof.
  intros K E. assert (I : In (map N.of_nat (seq 0 k)) (different w k)).
  { unfold different. apply filter_In. split.
    - apply in_matrices. split; [now rewrite map_length, seq_length|]. intros x X. apply in_map_iff in X. destruct X as (i & <- & I). apply in_seq in I. lia.
    - apply distinctb_spec. apply FinFun.Injective_map_NoDup; [intros a b H; lia|apply seq_NoDup]. }
  rewrite E in I. destruct I.
Qed.
Section Different.
Variable sort_index : list N -> list nat.
Hypothesis SI : sorts_indices sort_index.
Variable lookup : list (list nat).
Variable w : N.
Variable k : nat.
Hypothesis LP : lists_permutations k lookup.
Hypothesis KW : (N.of_nat k <= 2 ^ w)%N.
Local Notation om := (different w k).
Definition og (i : nat) : list N -> bool := has_order sort_index (nth i lookup []).
Lemma og_disjoint i j o : (i < length lookup)%nat -> (j < length lookup)%nat -> og i o = true -> og j o = true -> i = j.
Proof. intros I J A B. unfold og in *. apply has_spec in A, B. apply (proj1 (NoDup_nth lookup []) (proj1 LP) i j I J). congruence. Qed.
Lemma og_share i : (i < length lookup)%nat -> VtestLaw.prb om (og i) = / INR (length lookup).
Proof.
  intro I. assert (P : Permutation (nth i lookup []) (seq 0 k)) by (apply (proj2 LP), nth_In; exact I). unfold VtestLaw.prb, VtestLaw.cnt, og. rewrite (order_count sort_index SI lookup w k LP _ P).
  rewrite (different_count sort_index SI lookup w k LP). fold (m lookup). pose proof (m_pos lookup k LP) as MP.
  assert (0 < m lookup * INR (rising w k)).
  { rewrite <- (different_count sort_index SI lookup w k LP). pose proof (different_ne w k KW). destruct om; [congruence|]. apply lt_0_INR. cbn. lia. }
  assert (INR (rising w k) <> 0) by (intro E; rewrite E in H; lra). unfold m in *. field. split; lra.
Qed.
Lemma different_nodup : NoDup om.
Proof. apply NoDup_filter, DnaLaw.matrices_nodup. Qed.
Lemma different_law n all : (1 <= n)%nat -> lists_samples om n all -> let m := INR (length lookup) in
  average all (orders_chisq sort_index lookup) = m - 1 /\ average all (fun L => (orders_chisq sort_index lookup L - (m - 1)) ^ 2) = 2 * (m - 1) * (1 - 1 / INR n).
Proof.
  intros N1 A mm. pose proof (different_ne w k KW) as NE. assert (NP : 0 < INR n) by (apply lt_0_INR; lia). pose proof (m_pos lookup k LP) as MP. change (OrdersLaw.m lookup) with mm in MP.
  assert (AT : forall f, average all f = average (DnaBlock.tuples om n) f) by (intro f; rewrite (average_samples om n all f A different_nodup); unfold average; now rewrite size_tuples).
  assert (GP : forall i, (i < length lookup)%nat -> 0 < VtestLaw.prb om (og i)) by (intros i I; rewrite og_share by exact I; now apply Rinv_0_lt_compat).
  destruct (Q_moments om NE og (length lookup) (fun i j o _ I J => og_disjoint i j o I J) GP n) as (M & V).
  assert (EP : VtestVar.P om og (length lookup) = 1).
  { unfold VtestVar.P, VtestVar.p. rewrite (rsum_ext _ _ (fun _ => / mm)) by (intros; now apply og_share). rewrite rsum_const. unfold mm in *. field. lra. }
  assert (EI : rsum (length lookup) (fun i => / VtestVar.p om og i) = mm * mm).
  { unfold VtestVar.p. rewrite (rsum_ext _ _ (fun _ => mm)) by (intros; rewrite og_share by assumption; apply Rinv_inv). rewrite rsum_const. reflexivity. }
  rewrite EP in M, V. rewrite EI in V. fold mm in M, V.
  assert (EQ : forall L, In L (DnaBlock.tuples om n) -> orders_chisq sort_index lookup L = / INR n * VtestVar.Q om og (length lookup) n L).
  { intros L I. apply CrapsLaw2.in_tuples in I. destruct I as (LL & _). unfold orders_chisq, VtestVar.Q, VtestVar.p. rewrite LL. fold mm.
    rewrite <- (rsum_nth [] (fun p => (INR (length (filter (has_order sort_index p) L)) - INR n / mm) ^ 2 / (INR n / mm)) lookup).
    rewrite rsum_scale. apply rsum_ext. intros i I. rewrite og_share by exact I. fold mm. unfold VtestLaw.cnt, og. field. lra. }
  rewrite !AT. split.
  - rewrite (average_ext _ _ _ EQ), average_scale, M. field. lra.
  - rewrite (average_ext _ _ (fun L => / INR n ^ 2 * (VtestVar.Q om og (length lookup) n L - INR n * (mm - 1)) ^ 2)).
    + rewrite average_scale, V. field. lra.
    + intros L I. rewrite EQ by exact I. field. lra.
Qed.
End Different.
(** For tuples without ties the orders are equally likely: the statistic has mean
    k!-1 and the variance of chi-square but for the factor 1-1/n. *)
Theorem C145_different : forall sort_index lookup w k n all, sorts_indices sort_index -> lists_permutations k lookup ->
  (N.of_nat k <= 2 ^ w)%N -> (1 <= n)%nat -> lists_samples (different w k) n all ->
  average all (orders_chisq sort_index lookup) = INR (fact k) - 1 /\
  average all (fun L => (orders_chisq sort_index lookup L - (INR (fact k) - 1)) ^ 2) = 2 * (INR (fact k) - 1) * (1 - 1 / INR n).
Proof.
  intros sort_index lookup w k n all SI LP K N1 A. rewrite <- (lookup_length k lookup LP). exact (different_law sort_index SI lookup w k LP K n all N1 A).
Qed.
(** For all tuples, in whatever way ties are ordered, the mean is larger by what
    the orders' probabilities differ, which is at most n k! times the square of
    the bound k(k-1)/2^(w+1) on the probability of a tie. *)
Theorem C145_mean : forall sort_index lookup w k n all, sorts_indices sort_index -> lists_permutations k lookup ->
  (1 <= n)%nat -> lists_samples (matrices w k) n all ->
  average all (orders_chisq sort_index lookup) = INR (fact k) - 1 + (INR n - 1) * (INR (fact k) * uneven sort_index lookup w k) /\
  0 <= uneven sort_index lookup w k <= (INR k * (INR k - 1) / 2 / 2 ^ N.to_nat w) ^ 2.
Proof.
  intros sort_index lookup w k n all SI LP N1 A. rewrite <- (lookup_length k lookup LP). split; [exact (chisq_mean sort_index SI lookup w k LP n all N1 A)|].
  destruct (uneven_le sort_index SI lookup w k LP) as (U0 & U1). split; [exact U0|]. eapply Rle_trans; [exact U1|]. destruct (ties_le w k). now apply pow_incr.
Qed.
(** Generators with so few bits that there are fewer tuples than orders: the mean
    grows with the number of samples. *)
Theorem C145_narrow_refuted : forall sort_index lookup w k n all, sorts_indices sort_index -> lists_permutations k lookup ->
  (1 <= n)%nat -> lists_samples (matrices w k) n all ->
  INR (fact k) - 1 + (INR n - 1) * (INR (fact k) / 2 ^ (N.to_nat w * k) - 1) <= average all (orders_chisq sort_index lookup).
Proof.
  intros sort_index lookup w k n all SI LP N1 A. destruct (C145_mean sort_index lookup w k n all SI LP N1 A) as (-> & _). rewrite <- (lookup_length k lookup LP).
  apply Rplus_le_compat_l. apply Rmult_le_compat_l; [apply le_INR in N1; cbn [INR] in N1; lra|]. pose proof (m_pos lookup k LP) as MP. unfold m in MP.
  pose proof (uneven_ge sort_index SI lookup w k LP) as U. unfold m in U.
  assert (L : INR (length (matrices w k)) = 2 ^ (N.to_nat w * k)) by (rewrite matrices_len, <- (N_nat_Z w), <- pow_IZR, pow_mult; reflexivity). rewrite L in U.
  apply (Rmult_le_compat_l (INR (length lookup))) in U; [|lra]. rewrite Rmult_minus_distr_l, Rinv_r in U by lra. exact U.
Qed.
(** One bit and five numbers, the default size: 32 tuples for 120 orders. *)
Example C145_ex : forall sort_index lookup n all, sorts_indices sort_index -> lists_permutations 5 lookup -> (1 <= n)%nat -> lists_samples (matrices 1 5) n all ->
  119 + (INR n - 1) * (11 / 4) <= average all (orders_chisq sort_index lookup).
Proof.
  intros sort_index lookup n all SI LP N1 A. pose proof (C145_narrow_refuted sort_index lookup 1 5 n all SI LP N1 A) as H. eapply Rle_trans; [|exact H].
  change (fact 5) with 120%nat. change (N.to_nat 1 * 5)%nat with 5%nat. replace (INR 120) with 120 by (rewrite INR_IZR_INZ; reflexivity). apply Rplus_le_compat; [lra|]. apply Req_le. f_equal. lra.
Qed.
(** The hypotheses hold, for example, of insertion sort. *)
Example C145_ex2 : lists_permutations 2 [[0; 1]; [1; 0]]%nat /\
  (exists si, sorts_indices si /\ orders_chisq si [[0; 1]; [1; 0]]%nat [[5; 3]; [1; 9]; [4; 2]]%N = 1 / 3) /\
  lists_samples (matrices 1 2) 3 (DnaBlock.tuples (matrices 1 2) 3) /\ (N.of_nat 2 <= 2 ^ 1)%N.
Proof.
  split; [|split; [|split]].
  - destruct (proj1 C70_ex) as (A & _ & B). split; [exact A|exact B].
  - destruct (proj2 C70_ex) as (si & S & E). exists si. split; [exact S|].
    assert (G : forall l p, length l = 2%nat -> In p [[0; 1]; [1; 0]]%nat -> StronglySorted N.le (map (fun i => nth i l 0%N) p) -> NoDup l -> si l = p).
    { intros l p L P SS ND. destruct (S l) as (Q & SQ). apply (indices_inj l); [exact ND| | |].
      - intros i I. apply (Permutation_in _ Q), in_seq in I. lia.
      - intros i I. rewrite L. destruct P as [<-|[<-|[]]]; destruct I as [<-|[<-|[]]]; lia.
      - apply sorted_unique; auto. assert (PP : Permutation p (seq 0 (length l))) by (rewrite L; destruct P as [<-|[<-|[]]]; [apply Permutation_refl|apply perm_swap]).
        eapply perm_trans; [apply (permute_perm (si l) l Q)|]. apply Permutation_sym. exact (permute_perm p l PP). }
    assert (E1 : si [5; 3]%N = [1; 0]%nat) by (apply G; [reflexivity|right; left; reflexivity|cbn; repeat constructor; lia|repeat constructor; cbn; intuition discriminate]).
    assert (E2 : si [1; 9]%N = [0; 1]%nat) by (apply G; [reflexivity|left; reflexivity|cbn; repeat constructor; lia|repeat constructor; cbn; intuition discriminate]).
    assert (E3 : si [4; 2]%N = [1; 0]%nat) by (apply G; [reflexivity|right; left; reflexivity|cbn; repeat constructor; lia|repeat constructor; cbn; intuition discriminate]).
    unfold orders_chisq. cbn [lsumR filter length]. unfold has_order. rewrite E1, E2, E3. cbn [list_eq_dec list_rec list_rect]. cbn. lra.
  - split; [apply CrapsLaw2.tuples_nodup, DnaLaw.matrices_nodup|]. intro l. apply CrapsLaw2.in_tuples.
  - cbn. lia.
Qed.

Print Assumptions C145_pvalue.
Print Assumptions C145_few.
Print Assumptions C145_different.
Print Assumptions C145_mean.
Print Assumptions C145_narrow_refuted.
