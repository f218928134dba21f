(** Theorem C142: the statistic of dab_bytedistrib under fair bits. *)
From Coq Require Import Lia Lra.
From Verif Require Export BytesSpec BytesStatModel.
From Verif Require Import BaseLemmas TallyLemmas OpermReal RunsArcs VtestArithLemmas VtestLaw WindowLaw WordCode CountStat KsReals RankLawLemmas MissingLaw BytesVar.
Open Scope R_scope.

Lemma countp_app {A} (f : A -> bool) l m : countp f (l ++ m) = (countp f l + countp f m)%N.
Proof. induction l as [|a l IH]; [reflexivity|]. cbn [app countp]. rewrite IH. lia. Qed.
Lemma countp_flat {A B} (f : B -> bool) (F : A -> list B) (h : A -> bool) l : (forall x, In x l -> countp f (F x) = if h x then 1%N else 0%N) ->
  countp f (flat_map F l) = countp h l.
Proof.
  induction l as [|a l IH]; intro H; [reflexivity|]. cbn [flat_map countp]. rewrite countp_app, IH by (intros; apply H; now right). now rewrite H by now left.
Qed.
Lemma cell_eqb b v i j i' j' : (i < 3)%nat -> (j < 3)%nat -> (i' < 3)%nat -> (j' < 3)%nat ->
  (Z.of_N (b * 9 + N.of_nat i' * 3 + N.of_nat j') =? Z.of_nat (v * 9 + (i * 3 + j)))%Z = (b =? N.of_nat v)%N && (i' =? i)%nat && (j' =? j)%nat.
Proof.
  intros I J I' J'. destruct (Z.eqb_spec (Z.of_N (b * 9 + N.of_nat i' * 3 + N.of_nat j')) (Z.of_nat (v * 9 + (i * 3 + j)))) as [E|E].
  - assert (E1 : b = N.of_nat v) by lia. assert (E2 : i' = i) by lia. assert (E3 : j' = j) by lia. subst. now rewrite N.eqb_refl, !Nat.eqb_refl.
  - destruct (N.eqb_spec b (N.of_nat v)) as [->|]; [|reflexivity]. destruct (Nat.eqb_spec i' i) as [->|]; [|reflexivity]. destruct (Nat.eqb_spec j' j) as [->|]; [|reflexivity]. lia.
Qed.
Lemma table_cell g w n c counts v i j : length counts = (256 * 9)%nat -> tallies counts (flat_map (sample_cells g w c) (seq 0 n)) ->
  (v < 256)%nat -> (i < 3)%nat -> (j < 3)%nat -> INR (N.to_nat (nth (v * 9 + (i * 3 + j)) counts 0%N)) = how_often n (sampled_byte w g c i j) v.
Proof.
  intros L (_ & T) V I J. rewrite T by lia. unfold how_often. f_equal.
  rewrite (countp_flat _ _ (fun t => (sampled_byte w g c i j t =? N.of_nat v)%N)); [apply CountStat.countp_filter|].
  intros t _. unfold sample_cells, byte_cell. cbn [seq flat_map map app countp]. rewrite !(cell_eqb _ v i j) by lia. unfold sampled_byte.
  assert (DI : i = 0%nat \/ i = 1%nat \/ i = 2%nat) by lia. assert (DJ : j = 0%nat \/ j = 1%nat \/ j = 2%nat) by lia.
  destruct DI as [->|[->| ->]]; destruct DJ as [->|[->| ->]]; cbn [Nat.eqb]; rewrite ?Bool.andb_false_r, ?Bool.andb_true_r; destruct (_ =? N.of_nat v)%N; reflexivity.
Qed.
Lemma table_chisq g w n c counts : length counts = (256 * 9)%nat -> tallies counts (flat_map (sample_cells g w c) (seq 0 n)) ->
  lsumR (map (fun x => (INR (N.to_nat x), INR n / 256)) counts) pearson = bytes_chisq w n g c.
Proof.
  intros L T. rewrite VtestLaw.lsumR_map.
  assert (E : forall f : N -> R, lsumR counts f = rsum (length counts) (fun k => f (nth k counts 0%N))).
  { intro f. clear. rewrite <- lsumR_seq. rewrite <- (VtestLaw.lsumR_map (fun k => nth k counts 0%N) f). f_equal. apply nth_ext with (d := 0%N) (d' := nth 0 counts 0%N); [now rewrite map_length, seq_length|].
    intros k K. rewrite (map_nth (fun k => nth k counts 0%N)), seq_nth by exact K. reflexivity. }
  rewrite E, L, rsum_rows. unfold bytes_chisq.
  rewrite (rsum_ext 256 _ (fun v => rsum 3 (fun i => rsum 3 (fun j => (how_often n (sampled_byte w g c i j) v - INR n / 256) ^ 2 / (INR n / 256))))).
  - rewrite rsum_swap. apply rsum_ext. intros i I. rewrite rsum_swap. reflexivity.
  - intros v V. change 9%nat with (3 * 3)%nat at 1. rewrite rsum_rows. apply rsum_ext. intros i I. apply rsum_ext. intros j J.
    unfold pearson. cbn [fst snd]. rewrite (table_cell g w n c counts v i j L T V I J). unfold Rdiv. ring.
Qed.
Lemma total_table g w n c counts : length counts = (256 * 9)%nat -> tallies counts (flat_map (sample_cells g w c) (seq 0 n)) ->
  lsumR counts (fun x => INR (N.to_nat x)) = 9 * INR n.
Proof.
  intros L T. assert (E : forall f : N -> R, lsumR counts f = rsum (length counts) (fun k => f (nth k counts 0%N))).
  { intro f. clear. rewrite <- lsumR_seq. rewrite <- (VtestLaw.lsumR_map (fun k => nth k counts 0%N) f). f_equal. apply nth_ext with (d := 0%N) (d' := nth 0 counts 0%N); [now rewrite map_length, seq_length|].
    intros k K. rewrite (map_nth (fun k => nth k counts 0%N)), seq_nth by exact K. reflexivity. }
  rewrite E, L, rsum_rows. rewrite (rsum_ext 256 _ (fun v => rsum 3 (fun i => rsum 3 (fun j => how_often n (sampled_byte w g c i j) v)))).
  - rewrite rsum_swap. rewrite (rsum_ext 3 _ (fun _ => 3 * INR n)); [rewrite rsum_const; cbn [INR]; ring|]. intros i I. rewrite rsum_swap.
    rewrite (rsum_ext 3 _ (fun _ => INR n)); [rewrite rsum_const; cbn [INR]; ring|]. intros j J. apply (often_all 256). intro t. apply MissingLemmas.field_lt.
  - intros v V. change 9%nat with (3 * 3)%nat at 1. rewrite rsum_rows. apply rsum_ext. intros i I. apply rsum_ext. intros j J. exact (table_cell g w n c counts v i j L T V I J).
Qed.
Lemma cells_real n counts : map (fun x => (of_N reals x, ndiv reals (of_N reals (N.of_nat n)) (nint reals 256))) counts = map (fun x => (INR (N.to_nat x), INR n / 256)) counts.
Proof. apply map_ext. intro x. rewrite !of_N_real, Nat2N.id. reflexivity. Qed.

Lemma pearson_same (x : R) : pearson (x, x) = 0.
Proof. unfold pearson. cbn [fst snd]. unfold Rdiv. ring. Qed.
Lemma zero3 : 0 + (0 + 0) = 0.
Proof. ring. Qed.

(** With 1280 samples or more (the default is 51200000) every cell is used and
    the p-value is that of the sum of the nine Pearson statistics with
    9*255 = 2295 degrees of freedom. *)
Theorem C142_pvalue : forall Q g w n c, (8 <= w <= 32)%N -> (1280 <= n)%nat ->
  dab_bytedistrib reals Rge_bool Q g w n c = Ok (Q (2295 / 2) (bytes_chisq w n g c / 2)).
Proof.
  intros Q g w n c W H. destruct (C69_bytes_partial g w n c (proj1 W) (proj2 W)) as (counts & E & L & T). unfold dab_bytedistrib. rewrite E. cbn [bind]. rewrite cells_real.
  rewrite Vtest_eval_ok by (rewrite map_length, L; reflexivity). cbn [bind]. change (nint reals 5) with 5. rewrite used_all.
  - assert (C : chisq_ofA reals (map (fun x => (INR (N.to_nat x), INR n / 256)) counts) = bytes_chisq w n g c).
    { unfold chisq_ofA. rewrite chisq_sum. rewrite <- (table_chisq g w n c counts L T). apply Rplus_0_l. }
    rewrite C. reflexivity.
  - intros x X. apply in_map_iff in X. destruct X as (y & <- & _). cbn [snd]. apply le_INR in H. replace (INR 1280) with 1280 in H by (rewrite INR_IZR_INZ; reflexivity). lra.
Qed.
(** With fewer, all cells are bundled into one whose count is certain: the
    p-value does not depend on the numbers. *)
Theorem C142_few : forall Q g w n c, (8 <= w <= 32)%N -> (n < 1280)%nat ->
  dab_bytedistrib reals Rge_bool Q g w n c = Ok (Q (2295 / 2) (0 / 2)).
Proof.
  intros Q g w n c W H. destruct (C69_bytes_partial g w n c (proj1 W) (proj2 W)) as (counts & E & L & T). unfold dab_bytedistrib. rewrite E. cbn [bind]. rewrite cells_real.
  rewrite Vtest_eval_ok by (rewrite map_length, L; reflexivity). cbn [bind]. change (nint reals 5) with 5.
  set (cells := map (fun x => (INR (N.to_nat x), INR n / 256)) counts).
  assert (S : forall c, In c cells -> snd c < 5).
  { intros x X. apply in_map_iff in X. destruct X as (y & <- & _). cbn [snd]. assert (H' : (n <= 1279)%nat) by lia. apply le_INR in H'. replace (INR 1279) with 1279 in H' by (rewrite INR_IZR_INZ; reflexivity). lra. }
  assert (F : filter (largeA reals Rge_bool 5) cells = [] /\ filter (fun c => negb (largeA reals Rge_bool 5 c)) cells = cells).
  { clear - S. induction cells as [|c cells IH]; [split; reflexivity|]. destruct IH as (I1 & I2); [intros; apply S; now right|]. cbn [filter].
    rewrite (large_no c) by (apply S; now left). cbn [negb]. rewrite I1, I2. now split. }
  destruct F as (F1 & F2).
  assert (B : bundleA reals cells = (9 * INR n, 9 * INR n)).
  { unfold bundleA. rewrite !dsum_sum. unfold cells. rewrite !map_map, !VtestLaw.lsumR_map. cbn [fst snd]. rewrite (total_table g w n c counts L T). f_equal.
    rewrite lsumR_const, L. change (256 * 9)%nat with (N.to_nat 2304). rewrite INR_IZR_INZ, N_nat_Z. change (IZR (Z.of_N 2304)) with 2304. field. }
  assert (Z : chisq_ofA reals (usedA reals Rge_bool 5 cells) = 0).
  { unfold usedA. rewrite F1, F2, B. cbn [app]. destruct (_ && _)%bool; [|reflexivity]. unfold chisq_ofA. rewrite chisq_sum. change (nint reals 0) with 0. cbn [lsumR]. rewrite pearson_same. exact zero3. }
  rewrite Z. reflexivity.
Qed.

(** The mean of the statistic over all sequences of words is 2295, the number of
    degrees of freedom, for every width of at least a byte. *)
Theorem C142_mean : forall w n, (8 <= w <= 32)%N -> (1 <= n)%nat ->
  average (matrices w (3 * n)) (fun l => bytes_chisq w n (drawn l) 0) = 2295.
Proof. intros w n (W1 & W2) N1. rewrite Nat.mul_comm. now apply bytes_mean. Qed.
(** Its variance depends on how the three bytes of a word overlap. *)
Theorem C142_variance : forall w n, (8 <= w <= 32)%N -> (1 <= n)%nat ->
  average (matrices w (3 * n)) (fun l => (bytes_chisq w n (drawn l) 0 - 2295) ^ 2) = bytes_variance w n.
Proof. intros w n (W1 & W2) N1. rewrite Nat.mul_comm. now apply bytes_square. Qed.
(** From 24 bits on the bytes are disjoint and the variance is, up to the factor
    1 - 1/n, twice the number of degrees of freedom, as for chi-square. *)
Theorem C142_wide : forall w n, (24 <= w <= 32)%N -> (1 <= n)%nat ->
  average (matrices w (3 * n)) (fun l => (bytes_chisq w n (drawn l) 0 - 2295) ^ 2) = 4590 * (1 - 1 / INR n).
Proof.
  intros w n W N1. rewrite C142_variance by (assumption || lia). unfold bytes_variance.
  assert (E : forall i j, (i < 3)%nat -> (j < 3)%nat -> shared_bits w i j = if (i =? j)%nat then 8%nat else 0%nat).
  { intros i j I J. set (P := fun v => forallb (fun i => forallb (fun j => (shared_bits v i j =? if (i =? j) then 8 else 0)%nat) (seq 0 3)) (seq 0 3)).
    assert (A : P w = true). { assert (B : forallb (fun k => P (N.of_nat k)) (seq 24 9) = true) by (vm_compute; reflexivity). rewrite forallb_forall in B. specialize (B (N.to_nat w)). rewrite N2Nat.id in B. apply B. apply in_seq. lia. }
    unfold P in A. rewrite forallb_forall in A. specialize (A i ltac:(apply in_seq; lia)). rewrite forallb_forall in A. specialize (A j ltac:(apply in_seq; lia)). now apply Nat.eqb_eq in A. }
  cbn [rsum]. rewrite !E by lia. cbn [Nat.eqb pow]. lra.
Qed.
(** For narrower generators the bytes share bits and the variance is larger: at 8
    bits the three bytes are the same and it is three times as large, so that the
    p-values are not those of a chi-square variable. *)
Theorem C142_narrow_refuted : forall n, (2 <= n)%nat ->
  (forall w, (8 <= w < 24)%N -> 4590 * (1 - 1 / INR n) < average (matrices w (3 * n)) (fun l => (bytes_chisq w n (drawn l) 0 - 2295) ^ 2)) /\
  average (matrices 8 (3 * n)) (fun l => (bytes_chisq 8 n (drawn l) 0 - 2295) ^ 2) = 3 * (4590 * (1 - 1 / INR n)).
Proof.
  intros n N2. assert (P : 0 < 1 - 1 / INR n).
  { apply le_INR in N2. cbn [INR] in N2. assert (1 / INR n <= 1 / 2); [|lra]. unfold Rdiv. rewrite !Rmult_1_l. apply Rinv_le_contravar; lra. }
  split.
  - intros w W. rewrite C142_variance by lia. unfold bytes_variance.
    set (S := fun v => fold_right Nat.add 0%nat (flat_map (fun i => map (fun j => (2 ^ shared_bits v i j - 1)%nat) (seq 0 3)) (seq 0 3))).
    assert (A : (765 < S w)%nat).
    { assert (B : forallb (fun k => (765 <? S (N.of_nat k))%nat) (seq 8 16) = true) by (vm_compute; reflexivity). rewrite forallb_forall in B. specialize (B (N.to_nat w)). rewrite N2Nat.id in B. apply Nat.ltb_lt, B, in_seq. lia. }
    assert (E : rsum 3 (fun i => rsum 3 (fun j => 2 ^ shared_bits w i j - 1)) = INR (S w)).
    { assert (G : forall k, 2 ^ k - 1 = INR (2 ^ k - 1)) by (intro k; rewrite minus_INR by (pose proof (Nat.pow_nonzero 2 k); lia); rewrite pow_INR; reflexivity).
      unfold S. cbn [rsum seq flat_map map app fold_right]. rewrite !plus_INR, !G. cbn [INR]. ring. }
    rewrite E. apply lt_INR in A. replace (INR 765) with 765 in A by (rewrite INR_IZR_INZ; reflexivity).
    replace (4590 * (1 - 1 / INR n)) with (6 * (1 - 1 / INR n) * 765) by ring. apply Rmult_lt_compat_l; lra.
  - rewrite C142_variance by lia. unfold bytes_variance.
    assert (E : forall i j, (i < 3)%nat -> (j < 3)%nat -> shared_bits 8 i j = 8%nat).
    { intros i j I J. assert (DI : i = 0%nat \/ i = 1%nat \/ i = 2%nat) by lia. assert (DJ : j = 0%nat \/ j = 1%nat \/ j = 2%nat) by lia. destruct DI as [->|[->| ->]]; destruct DJ as [->|[->| ->]]; reflexivity. }
    cbn [rsum]. rewrite !E by lia. cbn [pow]. lra.
Qed.
Example C142_ex : forall Q, sampled_byte 32 (drawn [0x11223344; 0x55667788; 0x99aabbcc]%N) 0 1 1 0 = 0x67%N /\
  shared_bits 16 0 1 = 4%nat /\ shared_bits 16 0 2 = 0%nat /\ shared_bits 32 0 1 = 0%nat /\
  average (matrices 16 (3 * 2)) (fun l => (bytes_chisq 16 2 (drawn l) 0 - 2295) ^ 2) = 2475 /\
  dab_bytedistrib reals Rge_bool Q (fun i => N.of_nat i) 32 1279 0 = Ok (Q (2295 / 2) (0 / 2)) /\
  dab_bytedistrib reals Rge_bool Q (fun i => N.of_nat i) 32 1280 0 = Ok (Q (2295 / 2) (bytes_chisq 32 1280 (fun i => N.of_nat i) 0 / 2)).
Proof.
  intro Q. do 4 (split; [vm_compute; reflexivity|]). split; [|split].
  - rewrite C142_variance by lia. unfold bytes_variance.
    cbn [rsum].
    change (shared_bits 16 0 0) with 8%nat.
    change (shared_bits 16 0 1) with 4%nat.
    change (shared_bits 16 0 2) with 0%nat.
    change (shared_bits 16 1 0) with 4%nat.
    change (shared_bits 16 1 1) with 8%nat.
    change (shared_bits 16 1 2) with 4%nat.
    change (shared_bits 16 2 0) with 0%nat.
    change (shared_bits 16 2 1) with 4%nat.
    change (shared_bits 16 2 2) with 8%nat.
    cbn [pow INR]. lra.
  - apply C142_few; lia.
  - apply C142_pvalue; lia.
Qed.
Print Assumptions C142_pvalue.
Print Assumptions C142_few.
Print Assumptions C142_mean.
Print Assumptions C142_variance.
Print Assumptions C142_wide.
Print Assumptions C142_narrow_refuted.
