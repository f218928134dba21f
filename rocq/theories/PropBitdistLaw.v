(** Theorem C146: the statistic and the p-value of rgb_bitdist. *)
From Coq Require Import Lia Lra.
From Verif Require Export BitdistLawSpec BitdistStat.
From Verif Require Import BaseLemmas TallyLemmas OpermReal OpermAverage DnaBlock RunsArcs WindowLaw KsReals WordCode VtestArithLemmas VtestLaw VtestVar CountStat MissingLaw BitdistLemmas BitdistLaw PropBitdist PropVtestLaw PropVtestVar PropOrders.
From Verif Require DnaLaw CrapsLaw2.
Open Scope R_scope.

Lemma tuple_map g n : forall c, tuple g n c = map (fun b => g (c + b)%nat) (seq 0 n).
Proof.
  induction n as [|n IH]; intro c; [reflexivity|]. cbn [tuple seq map]. rewrite Nat.add_0_r. f_equal. rewrite IH, <- seq_shift, map_map. apply map_ext. intro b. f_equal. lia.
Qed.
Lemma occurrences_shown (L : list (list N)) i t : (forall o, In o L -> length o = 64%nat) -> (t < length L)%nat ->
  occurrences_in (drawn (concat L)) 64 0 t i = N.of_nat (shown i (nth t L [])).
Proof.
  intros H T. apply N2Nat.inj. unfold occurrences_in. rewrite CountStat.countp_filter, Nat2N.id. unfold shown. rewrite <- (drawn_tuple L 64 t H T), tuple_map. rewrite VtestLaw.filter_map, map_length. f_equal. apply filter_ext. intro b. apply N.eqb_sym.
Qed.
Lemma trials_number (L : list (list N)) i k : (forall o, In o L -> length o = 64%nat) ->
  trials_with (drawn (concat L)) 64 0 (length L) i (N.of_nat k) = N.of_nat (length (filter (fun o => Nat.eqb (shown i o) k) L)).
Proof.
  intro H. apply N2Nat.inj. unfold trials_with. rewrite CountStat.countp_filter, Nat2N.id.
  rewrite (filter_ext_in _ (fun t => Nat.eqb (shown i (nth t L [])) k)).
  - rewrite <- (map_length (fun t => nth t L [])). rewrite <- (VtestLaw.filter_map (fun t => nth t L []) (fun o => Nat.eqb (shown i o) k)). f_equal. f_equal.
    apply nth_ext with (d := []) (d' := []); [now rewrite map_length, seq_length|].
    intros j J. rewrite map_length, seq_length in J. rewrite (nth_indep _ _ (nth (length L) L [])) by now rewrite map_length, seq_length. rewrite (map_nth (fun t => nth t L [])), seq_nth by exact J. reflexivity.
  - intros t T. apply in_seq in T. rewrite occurrences_shown by (assumption || lia). destruct (Nat.eqb_spec (shown i (nth t L [])) k) as [->|D]; [apply N.eqb_refl|apply N.eqb_neq; lia].
Qed.
Lemma bd_keep_ok A ge Q pdf nb n ri : forall rows i pv, (forall row, In row rows -> exists q, bd_eval A ge Q pdf nb n row = Ok q) -> (i <= ri)%N -> (ri < i + N.of_nat (length rows))%N ->
  bd_keep A ge Q pdf nb n ri rows i pv = bd_eval A ge Q pdf nb n (nth (N.to_nat (ri - i)) rows []).
Proof.
  assert (F : forall rows i pv, (forall row, In row rows -> exists q, bd_eval A ge Q pdf nb n row = Ok q) -> (ri < i)%N -> bd_keep A ge Q pdf nb n ri rows i pv = Ok pv).
  { induction rows as [|row rows IH]; intros i pv H L; [reflexivity|]. cbn [bd_keep]. destruct (H row (or_introl eq_refl)) as (q & ->). cbn [bind]. rewrite (proj2 (N.eqb_neq i ri)) by lia. apply IH; [intros; apply H; now right|lia]. }
  induction rows as [|row rows IH]; intros i pv H L U; [cbn [length] in U; lia|]. cbn [bd_keep]. destruct (H row (or_introl eq_refl)) as (q & E). rewrite E. cbn [bind].
  destruct (N.eqb_spec i ri) as [<-|D].
  - rewrite N.sub_diag. cbn [N.to_nat nth]. rewrite E. apply F; [intros; apply H; now right|lia].
  - rewrite IH; [|intros; apply H; now right|lia|cbn [length] in U; lia]. replace (N.to_nat (ri - i)) with (S (N.to_nat (ri - (i + 1)))) by lia. reflexivity.
Qed.

(** gsl_ran_binomial_pdf computes the binomial law *)
Definition binomial_law (pdf : nat -> R -> nat -> R) : Prop := forall k q m, (k <= m)%nat -> pdf k q m = ChisqSpec.binomial m q k.
(** n trials of 64 values of nb bits *)
Definition are_trials (nb : N) (n : nat) (L : list (list N)) : Prop := length L = n /\ forall o, In o L -> In o (trials nb).

Section Run.
Variable Q : R -> R -> R.
Variable pdf : nat -> R -> nat -> R.
Variable nb : N.
Variable n : nat.
Variable L : list (list N).
Hypothesis law : binomial_law pdf.
Hypothesis sizes : (1 <= nb)%N /\ (nb <= 31)%N.
Hypothesis samples : are_trials nb n L.
Lemma trial_length o : In o L -> length o = 64%nat.
Proof. intro I. apply samples in I. unfold trials in I. now apply in_matrices in I. Qed.
Lemma drawn_bound k : (drawn (concat L) k < 2 ^ nb)%N.
Proof.
  unfold drawn. assert (0 < 2 ^ nb)%N by (apply N.neq_0_lt_0, N.pow_nonzero; discriminate).
  destruct (nth_in_or_default k (concat L) 0%N) as [I|E]; [|rewrite E; lia]. apply in_concat in I. destruct I as (o & O & I). apply samples in O. unfold trials in O. apply in_matrices in O. now apply O.
Qed.
Lemma row_cells i row : (i < 2 ^ nb)%N -> length row = 65%nat ->
  (forall k, (k <= 64)%N -> nth (N.to_nat k) row 0%Z = Z.of_N (trials_with (drawn (concat L)) 64 0 n i k)) ->
  combine (map (nint reals) row) (bd_expected reals pdf nb n) = vtable (trials nb) (shown i) 65 n L.
Proof.
  intros I RL R. unfold bd_expected, vtable.
  assert (RM : row = map (fun k => nth k row 0%Z) (seq 0 65)).
  { apply nth_ext with (d := 0%Z) (d' := nth 65 row 0%Z); [now rewrite map_length, seq_length|]. intros j J. rewrite (map_nth (fun k => nth k row 0%Z)), seq_nth by lia. reflexivity. }
  rewrite RM at 1. rewrite map_map. generalize (seq_length 65 0). assert (S65 : forall k, In k (seq 0 65) -> (k <= 64)%nat) by (intros k K; apply in_seq in K; lia). revert S65.
  generalize (seq 0 65). intros l S65 _. induction l as [|k l IH]; [reflexivity|]. cbn [map combine]. rewrite IH by (intros; apply S65; now right). f_equal.
  pose proof (S65 k (or_introl eq_refl)) as K. f_equal.
  - rewrite <- (Nat2N.id k) at 1. rewrite R by lia. rewrite <- (proj1 samples). rewrite trials_number by exact trial_length. cbn [nint reals]. unfold number_in. rewrite INR_IZR_INZ, nat_N_Z. reflexivity.
  - rewrite of_N_real, Nat2N.id, law by exact K. rewrite (share nb i I k K). unfold p. rewrite of_N_real, two_pow. change (nmul reals) with Rmult. change (ndiv reals) with Rdiv. change (nint reals 1) with 1.
    f_equal. f_equal. unfold Rdiv. apply Rmult_1_l.
Qed.
Lemma eval_value i row : (i < 2 ^ nb)%N -> length row = 65%nat ->
  (forall k, (k <= 64)%N -> nth (N.to_nat k) row 0%Z = Z.of_N (trials_with (drawn (concat L)) 64 0 n i k)) ->
  bd_eval reals Rge_bool Q pdf nb n row = Ok (Q (INR (N.to_nat (sub32 (N.of_nat (value_terms nb i n)) 1)) / 2) (value_chisq nb i n L / 2)).
Proof.
  intros I RL R. unfold bd_eval. rewrite (row_cells i row I RL R). unfold value_chisq, chisq_samples, Vtest_samples, value_terms.
  rewrite Vtest_eval_ok by (unfold vtable; rewrite map_length, seq_length; reflexivity). cbn [bind N.eqb]. change (nint reals 20) with 20. rewrite Vtest_eval_ok by (unfold vtable; rewrite map_length, seq_length; reflexivity). rewrite used_length by lra. rewrite of_N_real. reflexivity.
Qed.
Lemma run_value ri before : (ri < 2 ^ nb)%N ->
  rgb_bitdist reals Rge_bool Q pdf (drawn (concat L)) nb n 0 ri before =
  Ok (Q (INR (N.to_nat (sub32 (N.of_nat (value_terms nb ri n)) 1)) / 2) (value_chisq nb ri n L / 2)).
Proof.
  intro I. unfold rgb_bitdist. destruct (C43_histograms (drawn (concat L)) nb n 0 (proj1 sizes) (proj2 sizes) drawn_bound) as (vt & E & VL & R). rewrite E. cbn [bind].
  rewrite bd_keep_ok.
  - rewrite N.sub_0_r. destruct (R ri I) as (R1 & R2). now apply eval_value.
  - intros row Row. apply (In_nth _ _ []) in Row. destruct Row as (j & J & <-). assert (JB : (N.of_nat j < 2 ^ nb)%N) by lia. destruct (R (N.of_nat j) JB) as (R1 & R2). rewrite Nat2N.id in *. eexists. now apply (eval_value (N.of_nat j)).
  - lia.
  - lia.
Qed.
End Run.

Lemma wrapped : INR (N.to_nat (sub32 (N.of_nat 0) 1)) = 2 ^ 32 - 1.
Proof. rewrite <- of_N_real. unfold of_N. cbn [nint reals]. change (Z.of_N (sub32 (N.of_nat 0) 1)) with 4294967295%Z. lra. Qed.
Lemma trials_ne nb : trials nb <> [].
Proof. unfold trials. rewrite matrices_tuples. apply tuples_ne, words_ne. Qed.
Lemma trials_nodup nb : NoDup (trials nb).
Proof. apply DnaLaw.matrices_nodup. Qed.
Lemma shown_le i o : (shown i o <= length o)%nat.
Proof. unfold shown. induction o as [|x o IH]; [apply le_n|]. cbn [filter]. destruct (N.eqb i x); cbn [length]; lia. Qed.
Lemma trials_cells nb i o : In o (trials nb) -> (shown i o < 65)%nat.
Proof. intro I. unfold trials in I. apply in_matrices in I. destruct I as (E & _). pose proof (shown_le i o). lia. Qed.
Lemma shares_one nb i : lsumR (seq 0 65) (cell_share (trials nb) (shown i)) = 1.
Proof. apply all_shares; [apply trials_ne|intros o; apply trials_cells]. Qed.
Lemma terms_pos nb i n : (20 <= n)%nat -> (1 <= value_terms nb i n)%nat.
Proof.
  intro H. apply some_terms; [apply trials_ne|intros o; apply trials_cells|]. apply le_INR in H. replace (INR 20) with 20 in H by (rewrite INR_IZR_INZ; reflexivity). exact H.
Qed.
Lemma terms_le nb i n : (value_terms nb i n <= 66)%nat.
Proof.
  unfold value_terms, terms. assert (F : forall b : nat -> bool, (length (filter b (seq 0 65)) <= 65)%nat).
  { intro b. rewrite <- (seq_length 65 0) at 2. generalize (seq 0 65). induction l as [|x l IH]; [apply le_n|]. cbn [filter]. destruct (b x); cbn [length]; lia. }
  specialize (F (big (trials nb) (shown i) n 20)). destruct (Rle_dec _ _); lia.
Qed.

(** The probability that a fair trial shows a value exactly k times is the one the
    test uses, C(64,k) 2^(-nb k) (1 - 2^-nb)^(64-k), for every value. *)
Theorem C146_binomial : forall nb i k, (i < 2 ^ nb)%N -> (k <= 64)%nat ->
  cell_share (trials nb) (shown i) k = ChisqSpec.binomial 64 (/ 2 ^ N.to_nat nb) k.
Proof. intros nb i k I K. exact (share nb i I k K). Qed.
(** From 20 samples on, the p-value is that of the statistic of the chosen value,
    with one degree of freedom less than terms. *)
Theorem C146_pvalue : forall Q pdf nb n L ri before, binomial_law pdf -> (1 <= nb)%N -> (nb <= 31)%N -> are_trials nb n L -> (ri < 2 ^ nb)%N -> (20 <= n)%nat ->
  rgb_bitdist reals Rge_bool Q pdf (drawn (concat L)) nb n 0 ri before =
  Ok (Q ((INR (value_terms nb ri n) - 1) / 2) (value_chisq nb ri n L / 2)).
Proof.
  intros Q pdf nb n L ri before LAW N1 N31 T I H. rewrite (run_value Q pdf nb n L LAW (conj N1 N31) T) by exact I.
  pose proof (terms_pos nb ri n H) as P. pose proof (terms_le nb ri n) as U. set (m := value_terms nb ri n) in *. clearbody m.
  assert (E : sub32 (N.of_nat m) 1 = N.of_nat (m - 1)) by (rewrite sub32_small by lia; lia). rewrite E, Nat2N.id, minus_INR by exact P. reflexivity.
Qed.
(** Over all sequences of n trials the statistic of every value has the degrees of
    freedom as its mean, plus the probability of what it leaves out. *)
Theorem C146_moments : forall nb n i all, (1 <= n)%nat -> lists_samples (trials nb) n all ->
  let mean := average all (value_chisq nb i n) in
  mean = INR (value_terms nb i n) - 1 + value_left_out nb i n /\
  average all (fun L => (value_chisq nb i n L - mean) ^ 2) = vtest_variance (trials nb) (shown i) 65 n 20.
Proof.
  intros nb n i all N1 A. apply C144_variance; try assumption; [apply trials_ne|apply trials_nodup|intros o; apply trials_cells|reflexivity|lra].
Qed.
(** Neither the degrees of freedom nor these moments depend on the value. *)
Theorem C146_same : forall nb n i j, (i < 2 ^ nb)%N -> (j < 2 ^ nb)%N ->
  value_terms nb i n = value_terms nb j n /\ value_left_out nb i n = value_left_out nb j n /\
  vtest_variance (trials nb) (shown i) 65 n 20 = vtest_variance (trials nb) (shown j) 65 n 20.
Proof.
  intros nb n i j I J. assert (S : forall k, In k (seq 0 65) -> cell_share (trials nb) (shown i) k = cell_share (trials nb) (shown j) k).
  { intros k K. apply in_seq in K. rewrite !C146_binomial by (assumption || lia). reflexivity. }
  exact (same_shares (trials nb) (shown i) (shown j) 65 n 20 S).
Qed.
(** With fewer than 20 samples nothing is used, the degrees of freedom wrap around,
    and the p-value is the same for all inputs. *)
Theorem C146_few : forall Q pdf nb n L ri before, binomial_law pdf -> (1 <= nb)%N -> (nb <= 31)%N -> are_trials nb n L -> (ri < 2 ^ nb)%N -> (n < 20)%nat ->
  rgb_bitdist reals Rge_bool Q pdf (drawn (concat L)) nb n 0 ri before = Ok (Q ((2 ^ 32 - 1) / 2) (0 / 2)).
Proof.
  intros Q pdf nb n L ri before LAW N1 N31 T I H. rewrite (run_value Q pdf nb n L LAW (conj N1 N31) T) by exact I.
  assert (N20 : INR n < 20). { replace 20 with (INR 20) by (rewrite INR_IZR_INZ; reflexivity). now apply lt_INR. }
  destruct (no_terms (trials nb) (shown ri) 65 n 20 (trials_ne nb) N20) as (VT & VC). unfold value_terms. rewrite VT.
  assert (V0 : value_chisq nb ri n L = 0).
  { unfold value_chisq, chisq_samples, Vtest_samples. rewrite Vtest_eval_ok by (unfold vtable; rewrite map_length, seq_length; reflexivity). apply VC. lra. }
  rewrite V0, wrapped. reflexivity.
Qed.
Lemma bernoulli x m : 0 <= x <= 1 -> 1 - INR m * x <= (1 - x) ^ m.
Proof.
  intro H. induction m as [|m IH]; [cbn; lra|]. rewrite S_INR. cbn [pow]. assert ((1 - x) * (1 - INR m * x) <= (1 - x) * (1 - x) ^ m) by (apply Rmult_le_compat_l; lra).
  pose proof (pos_INR m). assert (0 <= INR m * (x * x)) by (apply Rmult_le_pos; [lra|apply Rle_0_sqr]). nra.
Qed.
Lemma never_whole nb a n m : (1 <= nb)%N -> (0 < n)%Z -> (n < 2 ^ Z.of_nat m)%Z -> IZR a <> IZR n * (1 - / 2 ^ N.to_nat nb) ^ m.
Proof.
  intros N1 N0 N64 E. set (b := (2 ^ Z.of_N nb)%Z) in *. assert (BP : (2 <= b)%Z). { change 2%Z with (2 ^ 1)%Z. apply Z.pow_le_mono_r; lia. }
  assert (BR : 2 ^ N.to_nat nb = IZR b) by (rewrite pow_IZR, N_nat_Z; reflexivity). rewrite BR in E. assert (B0 : IZR b <> 0) by (apply not_0_IZR; lia).
  replace (1 - / IZR b) with (IZR (b - 1) * / IZR b) in E by (rewrite minus_IZR; field; exact B0). rewrite Rpow_mult_distr, pow_inv in E.
  rewrite !pow_IZR in E. assert (D : IZR a * IZR (b ^ Z.of_nat m) = IZR n * IZR ((b - 1) ^ Z.of_nat m)).
  { rewrite E. field. apply not_0_IZR. apply Z.pow_nonzero; lia. }
  rewrite <- !mult_IZR in D. apply eq_IZR in D.
  assert (RP : Znumtheory.rel_prime (b ^ Z.of_nat m) ((b - 1) ^ Z.of_nat m)).
  { apply Zpow_facts.rel_prime_Zpower; [lia|lia|]. apply Znumtheory.bezout_rel_prime. apply (Znumtheory.Bezout_intro b (b - 1) 1 1 (-1)). lia. }
  assert (DV : (b ^ Z.of_nat m | n)%Z).
  { apply (Znumtheory.Gauss _ ((b - 1) ^ Z.of_nat m)%Z); [exists a; lia|exact RP]. }
  apply Z.divide_pos_le in DV; [|exact N0]. assert (2 ^ Z.of_nat m <= b ^ Z.of_nat m)%Z by (apply (Z.pow_le_mono_l 2 b (Z.of_nat m)); lia). lia.
Qed.
(** When a value is so rare that all its positive counts together are expected
    less than 20 times, the statistic has a single term and no degree of freedom,
    and is never zero: the p-value is 0 whatever the generator produces. *)
Theorem C146_rare_refuted : forall Q pdf nb n L ri before, binomial_law pdf -> (forall x, 0 < x -> Q 0 x = 0) ->
  (1 <= nb)%N -> (nb <= 31)%N -> are_trials nb n L -> (ri < 2 ^ nb)%N ->
  (64 * N.of_nat n < 20 * 2 ^ nb)%N -> (20 * 2 ^ nb + 64 * N.of_nat n <= N.of_nat n * 2 ^ nb)%N ->
  rgb_bitdist reals Rge_bool Q pdf (drawn (concat L)) nb n 0 ri before = Ok 0.
Proof.
  intros Q pdf nb n L ri before LAW Q0 N1 N31 T I U W.
  assert (P2 : (1 <= 2 ^ nb)%N) by (apply (N.pow_le_mono_r 2 0 nb); lia). assert (P3 : (2 ^ nb <= 2 ^ 31)%N) by (apply N.pow_le_mono_r; lia).
  assert (H : (20 <= n)%nat) by nia.
  rewrite (C146_pvalue Q pdf nb n L ri before LAW N1 N31 T I H).
  set (q := / 2 ^ N.to_nat nb). pose proof (C146_binomial nb ri 0 I ltac:(lia)) as S0. fold q in S0.
  assert (S1 : ChisqSpec.binomial 64 q 0 = (1 - q) ^ 64).
  { transitivity (C 64 0 * q ^ 0 * (1 - q) ^ (64 - 0)); [reflexivity|]. rewrite C_first, Nat.sub_0_r. cbn [pow]. ring. }
  rewrite S1 in S0. clear S1.
  assert (BP : 1 <= 2 ^ N.to_nat nb) by (apply pow_R1_Rle; lra). assert (Q1 : 0 < q <= 1).
  { unfold q. split; [apply Rinv_0_lt_compat; lra|]. rewrite <- Rinv_1. apply Rinv_le_contravar; lra. }
  assert (Q2 : q * 2 ^ N.to_nat nb = 1) by (unfold q; apply Rinv_l; lra).
  assert (NB : forall m x, (N.of_nat m * x)%N = N.of_nat (m * N.to_nat x)) by (intros; lia).
  assert (U' : 64 * INR n < 20 * 2 ^ N.to_nat nb).
  { rewrite <- two_pow. assert (V : (64 * n < 20 * N.to_nat (2 ^ nb))%nat) by lia. apply lt_INR in V. rewrite !mult_INR in V. rewrite (INR_IZR_INZ 64), (INR_IZR_INZ 20) in V. exact V. }
  assert (W' : 20 * 2 ^ N.to_nat nb + 64 * INR n <= INR n * 2 ^ N.to_nat nb).
  { rewrite <- two_pow. assert (V : (20 * N.to_nat (2 ^ nb) + 64 * n <= n * N.to_nat (2 ^ nb))%nat) by nia. apply le_INR in V. rewrite plus_INR, !mult_INR in V. rewrite (INR_IZR_INZ 64), (INR_IZR_INZ 20) in V. exact V. }
  assert (BQ : 1 - 64 * q <= (1 - q) ^ 64). { pose proof (bernoulli q 64 ltac:(lra)) as BB. rewrite (INR_IZR_INZ 64) in BB. exact BB. }
  pose proof (pos_INR n) as NP.
  assert (G1 : 20 <= INR n * (1 - q) ^ 64).
  { apply Rle_trans with (INR n * (1 - 64 * q)); [|now apply Rmult_le_compat_l]. apply (Rmult_le_compat_r q) in W'; [|lra]. rewrite !Rmult_plus_distr_r, !Rmult_assoc, (Rmult_comm _ q), Q2 in W'. lra. }
  assert (G2 : INR n * (1 - (1 - q) ^ 64) < 20).
  { apply Rle_lt_trans with (INR n * (64 * q)); [apply Rmult_le_compat_l; lra|]. apply (Rmult_lt_compat_r q) in U'; [|lra]. replace (20 * 2 ^ N.to_nat nb * q) with (20 * (q * 2 ^ N.to_nat nb)) in U' by ring. rewrite Q2 in U'. lra. }
  rewrite <- S0 in G1, G2.
  destruct (one_term (trials nb) (shown ri) 65 n 20 (trials_ne nb) (fun o => trials_cells nb ri o) ltac:(lia) ltac:(lra) G1 G2) as (VT & VC).
  assert (V0 : value_chisq nb ri n L = pearson (number_in (shown ri) 0 L, INR n * cell_share (trials nb) (shown ri) 0)).
  { unfold value_chisq, chisq_samples, Vtest_samples. rewrite Vtest_eval_ok by (unfold vtable; rewrite map_length, seq_length; reflexivity). apply VC. }
  unfold value_terms. rewrite VT, V0. replace ((INR 1 - 1) / 2) with 0 by (cbn; lra). f_equal. apply Q0.
  unfold pearson. cbn [fst snd]. set (e := INR n * cell_share (trials nb) (shown ri) 0) in *. set (x := number_in (shown ri) 0 L).
  assert (NZ : x - e <> 0).
  { intro Z0. apply (never_whole nb (Z.of_nat (length (filter (fun o => Nat.eqb (shown ri o) 0) L))) (Z.of_nat n) 64 N1); [lia|apply Z.lt_trans with (2 ^ 32)%Z; [lia|reflexivity]|].
    rewrite <- !INR_IZR_INZ. fold q. rewrite <- S0. fold e. change (INR (length _)) with x. lra. }
  apply Rmult_lt_0_compat; [|lra]. apply Rmult_lt_0_compat; [|apply Rinv_0_lt_compat; lra].
  pose proof (Rsqr_pos_lt _ NZ) as SQ. unfold Rsqr in SQ. nra.
Qed.

(** For instance 1000 samples of 12-bit values: a source of zeros gets the p-value
    0, and so does every other source. *)
Example C146_ex : let L := repeat (repeat 0%N 64) (N.to_nat 1000) in
  are_trials 12 (N.to_nat 1000) L /\ (64 * N.of_nat (N.to_nat 1000) < 20 * 2 ^ 12)%N /\ (20 * 2 ^ 12 + 64 * N.of_nat (N.to_nat 1000) <= N.of_nat (N.to_nat 1000) * 2 ^ 12)%N /\
  binomial_law (fun k q m => ChisqSpec.binomial m q k) /\ lists_samples (trials 12) 20 (tuples (trials 12) 20).
Proof.
  intro L. split; [|split; [|split; [|split]]].
  - split; [apply repeat_length|]. intros o O. apply repeat_spec in O. subst o. unfold trials. apply in_matrices. split; [apply repeat_length|]. intros x X. apply repeat_spec in X. subst x. reflexivity.
  - rewrite N2Nat.id. reflexivity.
  - rewrite N2Nat.id. vm_compute. discriminate.
  - intros k q m _. reflexivity.
  - split; [apply CrapsLaw2.tuples_nodup, trials_nodup|]. intro l. apply CrapsLaw2.in_tuples.
Qed.

Print Assumptions C146_binomial.
Print Assumptions C146_pvalue.
Print Assumptions C146_moments.
Print Assumptions C146_same.
Print Assumptions C146_few.
Print Assumptions C146_rare_refuted.
