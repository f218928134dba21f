(** Theorems C135-C138: the statistics of the bit-counting tests under fair bits. *)
From Coq Require Import Lia Lra.
From Verif Require Import BaseLemmas TallyLemmas PopcountModel PropCountOnes PropPopcount PropSerial OpermReal RunsArcs VtestLaw WindowLaw WordCode CountStat SerialStat BitLaw.
From Verif Require Export BitStatSpec BitStatModel.
Open Scope R_scope.

(** ** C135: count-the-1s *)

(** With at least 79280 samples (the default is 256000) no cell is bundled, and
    the p-value is that of the difference of the two Pearson statistics. *)
Theorem C135_stream : forall P g n c, (forall i, (g i < 2 ^ 32)%N) -> (79280 <= N.of_nat n)%N ->
  diehard_count_1s_stream reals Rge_bool P g n c = Ok (P (2500 - (words_chisq 5 n (word5 g c) - words_chisq 4 n (word4 g c))) (sqrt 5000)).
Proof.
  intros P g n c G H. destruct (C36_stream g G n c) as (x4 & x5 & E & L4 & L5 & T4 & T5). unfold diehard_count_1s_stream. rewrite E. cbn [bind].
  assert (L4' : length x4 = (5 ^ 4)%nat) by (rewrite L4; reflexivity). assert (L5' : length x5 = (5 ^ 5)%nat) by (rewrite L5; reflexivity).
  rewrite count_p by assumption. cbn [bind]. rewrite (stat_words 5 n x5 (word5 g c) L5' T5), (stat_words 4 n x4 (word4 g c) L4' T4). reflexivity.
Qed.
Theorem C135_byte : forall P g n c, (forall i, (g i < 2 ^ 32)%N) -> (79280 <= N.of_nat n)%N ->
  diehard_count_1s_byte reals Rge_bool P g n c = Ok (P (2500 - (words_chisq 5 n (byte_word5 g c) - words_chisq 4 n (byte_word4 g c))) (sqrt 5000)).
Proof.
  intros P g n c G H. destruct (C36_byte g G n c) as (x4 & x5 & E & L4 & L5 & T4 & T5). unfold diehard_count_1s_byte. rewrite E. cbn [bind].
  assert (L4' : length x4 = (5 ^ 4)%nat) by (rewrite L4; reflexivity). assert (L5' : length x5 = (5 ^ 5)%nat) by (rewrite L5; reflexivity).
  rewrite count_p by assumption. cbn [bind]. rewrite (stat_words 5 n x5 (byte_word5 g c) L5' T5), (stat_words 4 n x4 (byte_word4 g c) L4' T4). reflexivity.
Qed.
(** Over all sequences of 32-bit words the mean of each statistic is its number
    of cells less one, so that the difference has mean 2500, although the words
    overlap; for any number of samples. *)
Theorem C135_stream_mean : forall n M, (1 <= n)%nat -> (n + 4 <= 4 * M)%nat ->
  average (matrices 32 M) (fun l => words_chisq 5 n (word5 (drawn l) 0)) = 3124 /\
  average (matrices 32 M) (fun l => words_chisq 4 n (word4 (drawn l) 0)) = 624 /\
  average (matrices 32 M) (fun l => words_chisq 5 n (word5 (drawn l) 0) - words_chisq 4 n (word4 (drawn l) 0)) = 2500.
Proof.
  intros n M N1 NM. rewrite average_minus.
  rewrite (stream_mean n M 5 0 (fun l => word5 (drawn l) 0)), (stream_mean n M 4 1 (fun l => word4 (drawn l) 0)); [repeat split; lra|lia|lia|lia|reflexivity|lia|lia|lia|reflexivity].
Qed.
Theorem C135_byte_mean : forall n M, (1 <= n)%nat -> (5 * n <= M)%nat ->
  average (matrices 32 M) (fun l => words_chisq 5 n (byte_word5 (drawn l) 0)) = 3124 /\
  average (matrices 32 M) (fun l => words_chisq 4 n (byte_word4 (drawn l) 0)) = 624 /\
  average (matrices 32 M) (fun l => words_chisq 5 n (byte_word5 (drawn l) 0) - words_chisq 4 n (byte_word4 (drawn l) 0)) = 2500.
Proof.
  intros n M N1 NM. rewrite average_minus.
  rewrite (byte_mean n M 5 0 (fun l => byte_word5 (drawn l) 0)), (byte_mean n M 4 1 (fun l => byte_word4 (drawn l) 0)); [repeat split; lra|lia|lia|lia|reflexivity|lia|lia|lia|reflexivity].
Qed.
(** With four samples or fewer every cell is left out and the p-value does not
    depend on the numbers. *)
Theorem C135_few : forall P g n c, (forall i, (g i < 2 ^ 32)%N) -> (n <= 4)%nat ->
  diehard_count_1s_stream reals Rge_bool P g n c = Ok (P 2500 (sqrt 5000)) /\
  diehard_count_1s_byte reals Rge_bool P g n c = Ok (P 2500 (sqrt 5000)).
Proof.
  intros P g n c G H. split.
  - destruct (C36_stream g G n c) as (x4 & x5 & E & L4 & L5 & _). unfold diehard_count_1s_stream. rewrite E. cbn [bind].
    rewrite count_few by (assumption || rewrite ?L4, ?L5; reflexivity). cbn [bind]. change (Ok (P (2500 - 0) (sqrt 5000)) = Ok (P 2500 (sqrt 5000))). now rewrite Rminus_0_r.
  - destruct (C36_byte g G n c) as (x4 & x5 & E & L4 & L5 & _). unfold diehard_count_1s_byte. rewrite E. cbn [bind].
    rewrite count_few by (assumption || rewrite ?L4, ?L5; reflexivity). cbn [bind]. change (Ok (P (2500 - 0) (sqrt 5000)) = Ok (P 2500 (sqrt 5000))). now rewrite Rminus_0_r.
Qed.
Example C135_ex : forall P g, (forall i, (g i < 2 ^ 32)%N) ->
  letter_share 0 = 37 / 256 /\ letter_share 2 = 70 / 256 /\ word_share 2 7 = 56 / 256 * (70 / 256) /\
  average (matrices 32 2) (fun l => words_chisq 5 3 (word5 (drawn l) 0)) = 3124 /\
  diehard_count_1s_stream reals Rge_bool P g (N.to_nat 256000) 0 = Ok (P (2500 - (words_chisq 5 (N.to_nat 256000) (word5 g 0) - words_chisq 4 (N.to_nat 256000) (word4 g 0))) (sqrt 5000)).
Proof.
  intros P g G. destruct letter_values as (E0 & E1 & E2 & _). repeat split; [exact E0|exact E2| | |].
  - cbn [word_share]. change (7 mod 5)%N with 2%N. change (7 / 5 mod 5)%N with 1%N. rewrite E1, E2. lra.
  - exact (proj1 (C135_stream_mean 3 2 ltac:(lia) ltac:(lia))).
  - apply C135_stream; [exact G|]. rewrite N2Nat.id. discriminate.
Qed.

(** ** C136: the serial test *)

Theorem C136_pvalues : forall P Q window0 l, l <> [] -> (forall x, In x l -> (x < 2 ^ 32)%N) -> (N.of_nat (length l) < 2 ^ 27)%N ->
  sts_serial reals P Q window0 l = Ok (serial_list P Q l).
Proof. intros P Q window0 l H B L. apply serial_ok; assumption. Qed.
(** Under fair bits the means are those of the chi-square distributions whose
    degrees of freedom are twice the first argument of the gamma function, for any
    number of words. *)
Theorem C136_means : forall M, (1 <= M)%nat ->
  (forall m, (1 <= m <= 16)%nat -> average (matrices 32 M) (fun l => psi_square l m) = 2 ^ m - 1) /\
  (forall m, (2 <= m <= 16)%nat -> average (matrices 32 M) (fun l => del_psi l m) = 2 * 2 ^ (m - 2)) /\
  (forall m, (3 <= m <= 16)%nat -> average (matrices 32 M) (fun l => del2_psi l m) = 2 * 2 ^ (m - 3)) /\
  average (matrices 32 M) zeros_minus_ones = 0 /\
  average (matrices 32 M) (fun l => zeros_minus_ones l ^ 2) = 32 * INR M.
Proof.
  intros M HM. split; [|split; [|split; [|split]]].
  - intros m Hm. now apply psi_mean.
  - intros m Hm. rewrite del_mean by lia. replace (m - 1)%nat with (Datatypes.S (m - 2)) by lia. reflexivity.
  - intros m Hm. rewrite del2_mean by lia. replace (m - 2)%nat with (Datatypes.S (m - 3)) by lia. reflexivity.
  - now apply zeros_mean.
  - now apply zeros_square.
Qed.
(** psi-square is Pearson's statistic of the windows against equal shares. *)
Theorem C136_pearson : forall l m, (1 <= m)%nat -> l <> [] ->
  psi_square l m = rsum (2 ^ m) (fun v => (how_often (32 * length l) (cyclic_window l m) v - bits_in l / 2 ^ m) ^ 2 / (bits_in l / 2 ^ m)).
Proof.
  intros l m Hm H. rewrite psi_pearson by assumption. apply rsum_ext. intros v _. rewrite bits_in_INR, pow_inv. reflexivity.
Qed.
Example C136_ex : forall P Q, sts_serial reals P Q 99 [0xF0000001%N] = Ok (serial_list P Q [0xF0000001%N]) /\
  length (serial_list P Q [0xF0000001%N]) = 30%nat /\ zeros_minus_ones [0xF0000001%N] = 22.
Proof.
  intros P Q. split; [|split; [reflexivity|]].
  - apply C136_pvalues; [discriminate| |reflexivity]. intros x [<-|[]]. reflexivity.
  - unfold zeros_minus_ones, how_often. cbn [length]. 
    replace (length (filter (fun t => (cyclic_window [0xF0000001%N] 1 t =? N.of_nat 0)%N) (seq 0 (32 * 1)))) with 27%nat by (vm_compute; reflexivity).
    replace (length (filter (fun t => (cyclic_window [0xF0000001%N] 1 t =? N.of_nat 1)%N) (seq 0 (32 * 1)))) with 5%nat by (vm_compute; reflexivity).
    rewrite !INR_IZR_INZ. cbn [Z.of_nat Pos.of_succ_nat Pos.succ]. lra.
Qed.

(** ** C137: monobit *)

Lemma balance_sum w g n c : IZR (balance g w n c) = ones_minus_zeros w (map g (seq c n)).
Proof.
  unfold balance, ones_minus_zeros. replace (seq c n) with (map (fun k => (c + k)%nat) (seq 0 n)) by (symmetry; apply CountLaw.seq_map).
  induction (seq 0 n) as [|k l IH]; [reflexivity|]. cbn [fold_right map lsumR]. rewrite plus_IZR, IH. f_equal.
  rewrite !minus_IZR, <- !INR_IZR_INZ. rewrite (INR_IZR_INZ (N.to_nat _)), N_nat_Z. ring.
Qed.
Theorem C137_pvalue : forall P g w n c, (w <= 32)%nat -> (forall i, (g i < 2 ^ N.of_nat w)%N) -> (N.of_nat w * N.of_nat n < 2 ^ 32)%N ->
  sts_monobit reals P g (N.of_nat w) n c = P (- ones_minus_zeros w (map g (seq c n))) (sqrt (INR (w * n))).
Proof.
  intros P g w n c W G L. unfold sts_monobit, Xtest_eval, sts_monobit_xtest. cbn [xt_x xt_y xt_sigma nint nsub nsqrt reals].
  rewrite C67_statistic_partial by assumption. rewrite balance_sum, of_N_real. unfold mul32. rewrite w32_small by exact L. rewrite N2Nat.inj_mul, !Nat2N.id.
  f_equal. as_reals. ring.
Qed.
(** The statistic of fair bits has mean 0 and the standard deviation in the
    p-value. *)
Theorem C137_moments : forall w n, (1 <= w)%nat ->
  average (matrices (N.of_nat w) n) (ones_minus_zeros w) = 0 /\
  average (matrices (N.of_nat w) n) (fun l => ones_minus_zeros w l ^ 2) = INR (w * n) /\ sqrt (INR (w * n)) ^ 2 = INR (w * n).
Proof.
  intros w n W. split; [now apply monobit_mean|]. split; [now apply monobit_square|]. rewrite <- Rsqr_pow2. apply Rsqr_sqrt, pos_INR.
Qed.
Example C137_ex : forall P, sts_monobit reals P (fun i => if Nat.even i then 0xF0000001%N else 7%N) 32 2 0 = P (- (-22 + -26)) (sqrt (INR 64)).
Proof.
  intro P. change 32%N with (N.of_nat 32). rewrite C137_pvalue; [|lia|intro i; destruct (Nat.even i); reflexivity|reflexivity].
  f_equal. cbn [seq map Nat.even ones_minus_zeros lsumR]. unfold ones_minus_zeros. cbn [lsumR].
  replace (ones 32 0xF0000001) with 5%N by (vm_compute; reflexivity). replace (ones 32 7) with 3%N by (vm_compute; reflexivity).
  rewrite !INR_IZR_INZ, !N_nat_Z. cbn [Z.of_N Z.of_nat Pos.of_succ_nat Pos.succ]. lra.
Qed.

(** ** C138: runs *)

Lemma count_positions w l f : INR (N.to_nat (number_of f (w * length l))) = bit_count w l f.
Proof. unfold number_of, bit_count. now rewrite countp_filter. Qed.
Theorem C138_pvalue : forall P w l, (1 <= w <= 32)%nat -> l <> [] -> (forall x, In x l -> (x < 2 ^ N.of_nat w)%N) -> (N.of_nat (w * length l) < 2 ^ 31)%N ->
  sts_runs_pvalue reals P (N.of_nat w) l = Ok (P (changes_expected w l - changes_of w l) (changes_sigma w l)).
Proof.
  intros P w l (W1 & W2) H B L. unfold sts_runs_pvalue, sts_runs_xtest.
  destruct (C42_runs_partial w l W1 W2 B L) as (k & E & _). rewrite E. cbn [bind]. unfold Xtest_eval. cbn [xt_x xt_y xt_sigma nint nsub nmul ndiv nsqrt reals].
  rewrite !of_N_real, !count_positions. unfold mul32. rewrite w32_small by (apply (N.lt_trans _ (2 ^ 31)); [rewrite <- Nat2N.inj_mul; exact L|reflexivity]).
  rewrite N2Nat.inj_mul, !Nat2N.id. unfold changes_expected, changes_sigma, changes_of, ones_of. rewrite !mult_INR.
  rewrite (Rmult_comm (INR (length l)) (INR w)). reflexivity.
Qed.
(** For n fair bits the difference has mean 1/2, not 0, and variance
    (n - 2 - 2/n)/4, and the square of the sigma used has mean
    (n - 2 + 3/n - 2/n^2)/4. *)
Theorem C138_moments : forall w M, (1 <= w)%nat -> (3 <= w * M)%nat -> let n := INR (w * M) in
  average (matrices (N.of_nat w) M) (fun l => changes_of w l - changes_expected w l) = 1 / 2 /\
  average (matrices (N.of_nat w) M) (fun l => (changes_of w l - changes_expected w l - 1 / 2) ^ 2) = (n - 2 - 2 / n) / 4 /\
  average (matrices (N.of_nat w) M) (fun l => changes_sigma w l ^ 2) = (n - 2 + 3 / n - 2 / n ^ 2) / 4.
Proof.
  intros w M W H n. split; [now apply difference_mean|]. split; [now apply difference_variance|]. now apply sigma_mean.
Qed.
(** When all bits are equal the distribution is asked for 0 with sigma 0. *)
Theorem C138_constant : forall P w l, (1 <= w <= 32)%nat -> l <> [] -> (N.of_nat (w * length l) < 2 ^ 31)%N ->
  (forall x, In x l -> x = 0%N) \/ (forall x, In x l -> x = 2 ^ N.of_nat w - 1)%N ->
  sts_runs_pvalue reals P (N.of_nat w) l = Ok (P 0 0).
Proof.
  intros P w l W H L A.
  assert (NZ : (2 ^ N.of_nat w <> 0)%N) by (apply N.pow_nonzero; discriminate).
  rewrite C138_pvalue; [|exact W|exact H|intros x X; destruct A as [A|A]; rewrite (A x X); lia|exact L].
  assert (HL : (1 <= length l)%nat) by (destruct l; [congruence|cbn; lia]).
  assert (K : exists b, forall p, cyclic_lsb_bit (N.of_nat w) l p = b).
  { assert (I : forall i, In (nth (length l - 1 - i) l 0%N) l) by (intro i; apply nth_In; lia).
    destruct A as [A|A]; [exists false|exists true]; intro p; unfold cyclic_lsb_bit; rewrite (A _ (I _)); [apply N.bits_0|].
    rewrite <- N.pred_sub, <- N.ones_equiv. apply N.ones_spec_low. apply N.mod_upper_bound. lia. }
  destruct K as (b & K). set (n := (w * length l)%nat).
  assert (C0 : changes_of w l = 0).
  { unfold changes_of. rewrite bit_count_sum, (rsum_ext _ _ (fun _ => 0)); [rewrite rsum_const; ring|]. intros p _. rewrite !K, Bool.xorb_nilpotent. reflexivity. }
  assert (O : ones_of w l = if b then INR n else 0).
  { unfold ones_of. rewrite bit_count_sum, (rsum_ext _ _ (fun _ => b2r b)); [rewrite rsum_const; fold n; destruct b; unfold b2r; ring|]. intros p _. now rewrite K. }
  assert (NP : INR n <> 0) by (apply Rgt_not_eq, lt_0_INR; unfold n; nia).
  f_equal. unfold changes_expected, changes_sigma. rewrite C0, O. fold n. destruct b; f_equal; field; exact NP.
Qed.
Example C138_ex : changes_of 4 [5%N; 6%N] = 6 /\ changes_expected 4 [5%N; 6%N] = 4 /\ (forall P, sts_runs_pvalue reals P 4 [5%N; 6%N] = Ok (P (4 - 6) (changes_sigma 4 [5%N; 6%N]))).
Proof.
  assert (E1 : changes_of 4 [5%N; 6%N] = 6).
  { unfold changes_of, bit_count. match goal with |- INR ?x = _ => replace x with 6%nat by (vm_compute; reflexivity) end. rewrite INR_IZR_INZ. reflexivity. }
  assert (E2 : changes_expected 4 [5%N; 6%N] = 4).
  { unfold changes_expected, ones_of, bit_count. match goal with |- context [INR (length (filter ?f ?s))] => replace (length (filter f s)) with 4%nat by (vm_compute; reflexivity) end.
    cbn [length Nat.mul Nat.add]. rewrite !INR_IZR_INZ. cbn [Z.of_nat Pos.of_succ_nat Pos.succ]. lra. }
  split; [exact E1|]. split; [exact E2|]. intro P. change 4%N with (N.of_nat 4) at 1. rewrite C138_pvalue.
  - now rewrite E1, E2.
  - lia.
  - discriminate.
  - intros x [<-|[<-|[]]]; reflexivity.
  - reflexivity.
Qed.

Print Assumptions C135_stream.
Print Assumptions C135_byte.
Print Assumptions C135_stream_mean.
Print Assumptions C135_byte_mean.
Print Assumptions C135_few.
Print Assumptions C136_pvalues.
Print Assumptions C136_means.
Print Assumptions C136_pearson.
Print Assumptions C137_pvalue.
Print Assumptions C137_moments.
Print Assumptions C138_pvalue.
Print Assumptions C138_moments.
Print Assumptions C138_constant.
