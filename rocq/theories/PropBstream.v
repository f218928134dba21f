(** Theorems C139: the law of the number of words that the bitstream test
    misses. *)
From Coq Require Import Lia Lra ZArith.
From Verif Require Import BaseLemmas BitsLemmas OpermReal RunsArcs VtestLaw RankLawLemmas MissingLaw MissingLaw2 MissingNumbers WindowLaw WordDigits BstreamLaw BstreamStat TreeBins PropMissing PropMissingLaw.
From Verif Require Export BstreamSpec BstreamModel.
Open Scope R_scope.

Lemma unseen_spec n l : stream_unseen n l = unseen 8 20 n l.
Proof.
  unfold stream_unseen, unseen. pose proof (absent_sum 20 n (fun t => sword 8 20 t l) (fun t _ => sword_lt 8 20 t l)) as A.
  rewrite (map_ext (stream_word (drawn l) 0) (fun t => sword 8 20 t l)) by (intro; apply stream_sword). rewrite minus_IZR.
  change (IZR (2 ^ Z.of_N 20)) with (IZR (2 ^ 20)) in A. change (N.of_nat 20) with 20%N. lra.
Qed.
Lemma tilt_sum x : (x < 2 ^ 20)%N -> lsumR (words 20) (tilt x) = IZR (2 ^ 20) + 63.
Proof. intro H. unfold tilt. rewrite (words_one 20 x H 64 (fun _ => 1)), lsumR_const, words_len. change (Z.of_N 20) with 20%Z. ring. Qed.
Lemma wrapped_mean M n K : (n <= 20 * K)%nat -> (8 + 20 + 20 * K <= 32 * M)%nat ->
  average (matrices 32 M) (wrapped n) <= IZR (2 ^ 20) * (20 * (1 + 63 / IZR (2 ^ 20)) ^ K / 64 ^ 13).
Proof.
  intros H HM. set (T := fun l => lsumR (words 20) (fun x => rsum 20 (fun c => rprod K (fun i => tilt x (sword 8 20 (c + 20 * i) l)) / 64 ^ 13))).
  apply Rle_trans with (average (matrices 32 M) T).
  - apply (BstreamLaw.average_le M 20). intros l _. unfold wrapped, T. apply BstreamStat.lsumR_le. intros x _. now apply (often_tilt x n K (fun t => sword 8 20 t l)).
  - apply Req_le. unfold T. rewrite average_lsumR. rewrite (OpermReal.lsumR_ext _ _ (fun _ => 20 * (1 + 63 / IZR (2 ^ 20)) ^ K / 64 ^ 13)).
    + rewrite lsumR_const, words_len. reflexivity.
    + intros x Hx. apply in_words in Hx. rewrite average_rsum. rewrite (rsum_ext 20 _ (fun _ => (1 + 63 / IZR (2 ^ 20)) ^ K / 64 ^ 13)).
      * rewrite rsum_const. replace (INR 20) with 20 by (rewrite INR_IZR_INZ; reflexivity). unfold Rdiv. ring.
      * intros c C. rewrite (average_ext _ _ (fun l => / 64 ^ 13 * rprod K (fun i => tilt x (sword 8 20 (c + 20 * i) l)))) by (intros; unfold Rdiv; ring).
        rewrite average_scale, (disjoint_product M 8 20 (tilt x) c K) by lia. change (N.of_nat 20) with 20%N. rewrite tilt_sum by exact Hx. change (Z.of_nat 20) with 20%Z.
        unfold Rdiv. rewrite Rmult_comm. f_equal. f_equal. field. apply two_ne. lia.
Qed.
Lemma exp_power a K : 0 <= a -> (1 + a) ^ K <= exp (a * INR K).
Proof.
  intro A. induction K as [|K IH]; [cbn; rewrite Rmult_0_r, exp_0; lra|]. rewrite S_INR. replace (a * (INR K + 1)) with (a + a * INR K) by ring. rewrite exp_plus. cbn [pow].
  apply Rmult_le_compat; [lra|apply pow_le; lra| |exact IH]. apply exp_ineq1_le.
Qed.
Lemma wrapped_small M n : (N.of_nat n <= 2 ^ 21)%N -> (N.of_nat M = 262146)%N -> average (matrices 32 M) (wrapped n) <= / 10 ^ 12.
Proof.
  intros Hn HM. eapply Rle_trans; [apply (wrapped_mean M n (N.to_nat 104858)); lia|]. change (IZR (2 ^ 20)) with 1048576.
  pose proof (exp_power (63 / 1048576) (N.to_nat 104858) ltac:(lra)) as E. set (p := (1 + 63 / 1048576) ^ _) in *.
  assert (E7 : exp (63 / 1048576 * INR (N.to_nat 104858)) <= 3 ^ 7).
  { replace (INR (N.to_nat 104858)) with 104858 by (rewrite INR_IZR_INZ, N_nat_Z; reflexivity). apply Rle_trans with (exp 1 ^ 7).
    - replace (exp 1 ^ 7) with (exp 7); [left; apply exp_increasing; lra|]. replace 7 with (1 + (1 + (1 + (1 + (1 + (1 + 1)))))) by lra. rewrite !exp_plus. ring.
    - apply pow_incr. pose proof exp_le_3. pose proof (exp_pos 1). lra. }
  assert (P : p <= 2187) by (eapply Rle_trans; [exact E|]; eapply Rle_trans; [exact E7|]; lra). clearbody p. clear - P.
  replace (64 ^ 13) with (IZR (2 ^ 78)) by (change (2 ^ 78)%Z with (64 ^ Z.of_nat 13)%Z; rewrite <- pow_IZR; reflexivity). lra.
Qed.

(** ** C139: the expected number of missing words *)
Lemma few_zero n : missing_mean (IZR (2 ^ 20)) n = IZR (2 ^ 20) * (1 - 1 / IZR (2 ^ 20)) ^ n.
Proof. reflexivity. Qed.
Lemma unseen_bounds M n : (N.of_nat n <= 8388640)%N -> (N.of_nat M = 262146)%N ->
  Rabs (average (matrices 32 M) (stream_unseen n) - missing_mean (IZR (2 ^ 20)) n) <= 19 * (1 - (1 - 1 / IZR (2 ^ 20)) ^ n).
Proof.
  intros Hn HM. rewrite (average_ext _ _ (unseen 8 20 n)) by (intros; apply unseen_spec).
  assert (HB : (8 + n + 20 <= 32 * M + 1)%nat) by lia. assert (H1 : 1 <= IZR (2 ^ Z.of_nat 20)) by (apply IZR_le; lia).
  pose proof (mean_bounds M 8 20 ltac:(lia) n HB H1) as B. unfold mean_unseen in B. change (Z.of_nat 20) with 20%Z in B.
  replace (INR (20 - 1)) with 19 in B by (rewrite INR_IZR_INZ; reflexivity). exact B.
Qed.
(** For every number of words that the array of the test has room for, the mean
    number of words that do not occur is that of independent words up to 19. *)
Theorem C139_unseen : forall n, (N.of_nat n <= 8388640)%N ->
  Rabs (average stream_sequences (stream_unseen n) - missing_mean (IZR (2 ^ 20)) n) <= 19 * (1 - (1 - 1 / IZR (2 ^ 20)) ^ n).
Proof. intros n Hn. apply unseen_bounds; [exact Hn|]. rewrite N2Nat.id. reflexivity. Qed.

Lemma default_mean M n : (N.of_nat n = 2 ^ 21)%N -> (N.of_nat M = 262146)%N ->
  141892.7 <= average (matrices 32 M) (fun l => holes (bitstream_missing (drawn l) n 0)) <= 141925.7.
Proof.
  intros Hn HM. pose proof (unseen_bounds M n ltac:(lia) HM) as B. pose proof (wrapped_small M n ltac:(lia) HM) as W.
  assert (En : n = N.to_nat (2 ^ 21)) by lia. destruct moments20 as (P & _). rewrite <- En in P. rewrite few_zero in *. change (IZR (2 ^ 20)) with 1048576 in *.
  set (a := (1 - 1 / 1048576) ^ n) in *. assert (I : forall l, In l (matrices 32 M) -> unseen 8 20 n l <= holes (bitstream_missing (drawn l) n 0) <= unseen 8 20 n l + wrapped n l).
  { intros l Hl. apply stream_holes; [lia|]. apply in_matrices in Hl. apply Hl. }
  rewrite (average_ext _ _ (unseen 8 20 n)) in B by (intros; apply unseen_spec).
  pose proof (BstreamLaw.average_le M 20 _ _ (fun l Hl => proj1 (I l Hl))) as L. pose proof (BstreamLaw.average_le M 20 _ _ (fun l Hl => proj2 (I l Hl))) as U.
  rewrite average_plus in U. change (average (matrices 32 M) (fun l => unseen 8 20 n l)) with (average (matrices 32 M) (unseen 8 20 n)) in L, U.
  change (average (matrices 32 M) (fun l => wrapped n l)) with (average (matrices 32 M) (wrapped n)) in U.
  set (x := average _ (unseen 8 20 n)) in *. set (y := average _ (fun l => holes _)) in *. set (z := average _ (wrapped n)) in *. clearbody x y z a.
  apply abs_bounds in B. assert (0 < / 10 ^ 12 < 0.01) by lra. split; lra.
Qed.
Lemma z_small (all : list (list N)) x : all <> [] -> 141892.7 <= average all x <= 141925.7 ->
  Rabs (average all (z_of x (bitstream_y reals) (bitstream_sigma reals))) <= 0.04.
Proof.
  intros NE B. rewrite (average_ext _ _ (fun l => 141909 / 428 - / 428 * x l)).
  - rewrite average_minus, average_scale, average_const by exact NE. change (average all (fun l => x l)) with (average all x). apply Rabs_le. lra.
  - intros l _. unfold z_of, bitstream_y, bitstream_sigma. change (nint reals 141909) with 141909. change (nint reals 428) with 428. field.
Qed.
(** With the default number of words the count of the program, wrapped counters
    included, is 141909 on average up to a twenty-fifth of its deviation. *)
Theorem C139_mean : let n := N.to_nat (2 ^ 21) in
  let x := fun l => holes (bitstream_missing (drawn l) n 0) in
  141892.7 <= average stream_sequences x <= 141925.7 /\
  Rabs (average stream_sequences (z_of x (bitstream_y reals) (bitstream_sigma reals))) <= 0.04.
Proof.
  intros n x. assert (B : 141892.7 <= average stream_sequences x <= 141925.7) by exact (default_mean (N.to_nat 262146) n (N2Nat.id _) (N2Nat.id _)).
  split; [exact B|]. exact (z_small stream_sequences x (d_ne 32 (N.to_nat 262146)) B).
Qed.
(** The p-value is computed from the count. *)
Theorem C139_pvalue : forall P l n, (N.of_nat n <= 8388640)%N -> (forall x, In x l -> (x < 2 ^ 32)%N) ->
  diehard_bitstream reals P (drawn l) n 0 = Ok (P (141909 - holes (bitstream_missing (drawn l) n 0)) 428).
Proof.
  intros P l n Hn B. unfold diehard_bitstream. destruct (C35_bitstream_exact (drawn l) n 0) as (h & -> & _); [|exact Hn|reflexivity].
  intro i. unfold drawn. destruct (Nat.lt_ge_cases i (length l)) as [L|L]; [apply B, nth_In, L|]. rewrite nth_overflow by exact L. reflexivity.
Qed.
(** The number of words is an option of the program, the expected count is not:
    half a million words or fewer miss so many words that the count exceeds the
    expectation by 890 deviations, whatever the generator. *)
Theorem C139_few : forall l n, (N.of_nat n <= 2 ^ 19)%N -> (forall x, In x l -> (x < 2 ^ 32)%N) ->
  z_of (fun l => holes (bitstream_missing (drawn l) n 0)) (bitstream_y reals) (bitstream_sigma reals) l <= -890.
Proof.
  intros l n Hn B. unfold z_of, bitstream_y, bitstream_sigma. change (nint reals 141909) with 141909. change (nint reals 428) with 428.
  assert (U : 524288 <= unseen 8 20 n l).
  { rewrite <- unseen_spec. unfold stream_unseen. apply IZR_le. set (ws := map _ _).
    assert (distinct ws <= N.of_nat n)%N; [|change (2 ^ 19)%N with 524288%N in Hn; lia]. unfold distinct.
    assert (length (nodup N.eq_dec ws) <= length ws)%nat. { apply NoDup_incl_length; [apply NoDup_nodup|]. intros x Hx. apply nodup_In in Hx. exact Hx. }
    unfold ws in H at 2. rewrite map_length, seq_length in H. lia. }
  pose proof (stream_holes n l ltac:(lia) B) as (H & _). lra.
Qed.
(** Three words: all different, the first two equal, all equal. *)
Example C139_ex : stream_unseen 3 [16]%N = 1048573 /\ stream_unseen 3 [4]%N = 1048574 /\ stream_unseen 3 [0]%N = 1048575 /\
  map (stream_word (drawn [16%N]) 0) [0; 1; 2]%nat = [1; 2; 4]%N /\ In (repeat 5%N (N.to_nat 262146)) stream_sequences.
Proof.
  split; [unfold stream_unseen; apply f_equal; vm_compute; reflexivity|]. split; [unfold stream_unseen; apply f_equal; vm_compute; reflexivity|].
  split; [unfold stream_unseen; apply f_equal; vm_compute; reflexivity|]. split; [vm_compute; reflexivity|].
  apply (proj2 (in_matrices 32 (N.to_nat 262146) _)). split; [apply repeat_length|]. intros x Hx. apply repeat_spec in Hx. subst. reflexivity.
Qed.
Print Assumptions C139_unseen.
Print Assumptions C139_mean.
Print Assumptions C139_pvalue.
Print Assumptions C139_few.
