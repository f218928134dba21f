(** C161: the chi-square test of the divisors in marsaglia_tsang_gcd. *)
From Coq Require Import Lia Lra.
From Verif Require Import BaseLemmas DnaBlock OpermReal RunsArcs RunsLaw CrapsLaw CrapsLaw2 VtestArithLemmas VtestLaw.
From Verif Require Export VtestLawSpec GcdChisqModel.
Open Scope R_scope.

(** ** Specification *)
(** 1/i^2, and for the last cell of the table the sum up to 99999 *)
Definition inverse_square (j : nat) : R := 1 / (INR j * INR j).
Definition divisor_weight (size i : nat) : R :=
  if Nat.eqb i (size - 1) then lsumR (seq i (N.to_nat 100000 - i)) inverse_square else inverse_square i.
(** The counts of n samples by the divisor found, the last cell for all that are larger. *)
Definition divisor_counts {B} (cell : B -> nat) (size : nat) (l : list B) : list N :=
  map (fun i => N.of_nat (length (filter (fun o => Nat.eqb (cell o) i) l))) (seq 0 size).
Definition statistic (r : outcome (list (R * R) * R * N)) : R := match r with Ok (_, c, _) => c | _ => 0 end.

Section Reals.
Variable gnorm : R.

Lemma IZR_nat i : IZR (Z.of_nat i) = INR i. Proof. symmetry. apply INR_IZR_INZ. Qed.
Lemma tail_fold (c : R) l : forall a, fold_left (fun y j => nadd reals y (ndiv reals c (nmul reals (nmul reals (nint reals 1) (nint reals (Z.of_nat j))) (nint reals (Z.of_nat j))))) l a =
  a + lsumR l (fun j => c / (INR j * INR j)).
Proof.
  induction l as [|j l IH]; intro a; cbn [fold_left lsumR]; [symmetry; apply Rplus_0_r|]. rewrite IH. cbn [nadd ndiv nmul nint reals].
  rewrite IZR_nat. rewrite Rmult_1_l. as_reals. ring.
Qed.

(** The expected counts. *)
Theorem C161_expected : forall n size i, (2 <= i < size)%nat -> (size <= N.to_nat 65536)%nat ->
  gcd_expected reals gnorm n size i = IZR n * gnorm * divisor_weight size i.
Proof.
  intros n size i I S. unfold gcd_expected, divisor_weight. assert (S' : (N.of_nat size <= 65536)%N) by lia.
  rewrite sub32_small by lia. assert (E : (N.of_nat i =? N.of_nat size - 1)%N = Nat.eqb i (size - 1)).
  { destruct (N.eqb_spec (N.of_nat i) (N.of_nat size - 1)), (Nat.eqb_spec i (size - 1)); try reflexivity; lia. }
  rewrite E. destruct (Nat.eqb i (size - 1)).
  - etransitivity; [apply tail_fold|]. cbn [nint reals nmul]. rewrite Rplus_0_l, <- lsumR_scale. apply lsumR_ext. intros. unfold inverse_square, Rdiv. ring.
  - unfold mul32, w32. rewrite N.mod_small by (apply N.le_lt_trans with (65535 * 65535)%N; [nia|reflexivity]). cbn [nint reals nmul ndiv]. rewrite N2Z.inj_mul, nat_N_Z, mult_IZR, IZR_nat. as_reals. unfold inverse_square, Rdiv. ring.
Qed.
(** Their sum does not depend on the size of the table. *)
Lemma weight_sum size : (3 <= size <= N.to_nat 65536)%nat -> lsumR (seq 2 (size - 2)) (divisor_weight size) = lsumR (seq 2 (N.to_nat 100000 - 2)) inverse_square.
Proof.
  intro S. replace (N.to_nat 100000 - 2)%nat with ((size - 3) + (N.to_nat 100000 - (size - 1)))%nat by lia.
  replace (size - 2)%nat with ((size - 3) + 1)%nat by lia. rewrite !seq_app, !lsumR_app. f_equal.
  - apply lsumR_ext. intros i I. apply in_seq in I. unfold divisor_weight. destruct (Nat.eqb_spec i (size - 1)); [lia|reflexivity].
  - replace (2 + (size - 3))%nat with (size - 1)%nat by lia. cbn [seq lsumR]. unfold divisor_weight. rewrite Nat.eqb_refl. apply Rplus_0_r.
Qed.
Theorem C161_total : forall n size, (3 <= size <= N.to_nat 65536)%nat ->
  lsumR (seq 2 (size - 2)) (gcd_expected reals gnorm n size) = IZR n * gnorm * lsumR (seq 2 (N.to_nat 100000 - 2)) inverse_square.
Proof.
  intros n size S. rewrite <- (weight_sum size S), <- lsumR_scale. apply lsumR_ext. intros i I. apply in_seq in I. apply C161_expected; lia.
Qed.

Lemma inverse_pos j : (1 <= j)%nat -> 0 < inverse_square j.
Proof. intro J. apply (lt_INR 0) in J. cbn [INR] in J. unfold inverse_square. apply Rdiv_lt_0_compat; [lra|]. now apply Rmult_lt_0_compat. Qed.
Lemma lsumR_nonneg {X} (l : list X) f : (forall x, In x l -> 0 <= f x) -> 0 <= lsumR l f.
Proof. induction l as [|x l IH]; intro H; cbn [lsumR]; [lra|]. pose proof (H x (or_introl eq_refl)). pose proof (IH (fun y Y => H y (or_intror Y))). lra. Qed.
Lemma weight_ge size i : (2 <= i < size)%nat -> (size <= N.to_nat 65536)%nat -> inverse_square i <= divisor_weight size i.
Proof.
  intros I S. unfold divisor_weight. destruct (Nat.eqb i (size - 1)); [|lra].
  replace (N.to_nat 100000 - i)%nat with (1 + (N.to_nat 100000 - i - 1))%nat by lia. cbn [seq Nat.add lsumR].
  match goal with |- _ <= _ + ?s => assert (0 <= s) by (apply lsumR_nonneg; intros j J; apply in_seq in J; left; apply inverse_pos; lia) end. lra.
Qed.
(** With the size the program chooses, at least 100 samples are expected in each. *)
Theorem C161_enough : forall n size i, (2 <= i < size)%nat -> (size <= N.to_nat 65536)%nat -> INR size * INR size <= IZR n * gnorm / 100 ->
  100 <= gcd_expected reals gnorm n size i.
Proof.
  intros n size i I S H. rewrite C161_expected by lia.
  assert (P : 0 < INR i) by (apply lt_0_INR; lia). assert (L : INR i <= INR size) by (apply le_INR; lia).
  assert (Q : 0 < INR i * INR i) by nra. assert (Q2 : INR i * INR i <= INR size * INR size) by nra.
  apply Rle_trans with (IZR n * gnorm * inverse_square i).
  - unfold inverse_square. apply Rmult_le_reg_r with (INR i * INR i); [exact Q|]. unfold Rdiv. rewrite Rmult_1_l, Rmult_assoc, Rinv_l by lra. lra.
  - apply Rmult_le_compat_l; [lra|now apply weight_ge].
Qed.

Lemma used_divisors n gcd : let size := length gcd in (3 <= size <= N.to_nat 65536)%nat -> INR size * INR size <= IZR n * gnorm / 100 ->
  usedA reals Rge_bool 5 (gcd_cells reals gnorm n gcd) = map (fun i => (INR (N.to_nat (nth i gcd 0%N)), gcd_expected reals gnorm n size i)) (seq 2 (size - 2)).
Proof.
  intros size S H. unfold gcd_cells. fold size. replace (seq 0 size) with (seq 0 2 ++ seq 2 (size - 2)) by (rewrite <- seq_app; f_equal; lia). rewrite map_app.
  set (r := seq 2 (size - 2)).
  assert (E : map (fun i => if Nat.ltb 1 i then (nint reals (Z.of_N (nth i gcd 0%N)), gcd_expected reals gnorm n size i) else (nint reals 0, nint reals 0)) r =
              map (fun i => (INR (N.to_nat (nth i gcd 0%N)), gcd_expected reals gnorm n size i)) r).
  { apply map_ext_in. intros i I. apply in_seq in I. destruct (Nat.ltb_spec 1 i); [|lia]. cbn [nint reals]. rewrite INR_IZR_INZ, N_nat_Z. reflexivity. }
  rewrite E. clear E. set (m := map (fun i => (INR (N.to_nat (nth i gcd 0%N)), gcd_expected reals gnorm n size i)) r). change (map _ (seq 0 2)) with [(nint reals 0, nint reals 0); (nint reals 0, nint reals 0)].
  assert (L : forall c, In c m -> largeA reals Rge_bool 5 c = true).
  { intros c C. apply in_map_iff in C. destruct C as (i & <- & I). apply in_seq in I. unfold largeA, Rge_bool. cbn [snd].
    pose proof (C161_enough n size i ltac:(lia) ltac:(lia) H). destruct (Rle_dec _ _); [reflexivity|lra]. }
  assert (Z : largeA reals Rge_bool 5 (nint reals 0, nint reals 0) = false) by (unfold largeA, Rge_bool; cbn [snd nint reals]; destruct (Rle_dec _ _); [lra|reflexivity]).
  unfold usedA. rewrite !filter_app. cbn [filter]. rewrite Z. cbn [negb].
  assert (F : filter (largeA reals Rge_bool 5) m = m /\ filter (fun c => negb (largeA reals Rge_bool 5 c)) m = []).
  { clear -L. induction m as [|c m IH]; [split; reflexivity|]. cbn [filter]. rewrite (L c) by (now left). destruct IH as (-> & ->); [intros; apply L; now right|]. split; reflexivity. }
  destruct F as (-> & ->). cbn [app length Nat.eqb negb andb]. unfold bundleA. cbn [map dsumA fold_left fst snd].
  unfold largeA at 1, Rge_bool at 1. cbn [snd nint nadd reals]. destruct (Rle_dec 5 (0 + 0)); [lra|]. apply app_nil_r.
Qed.

(** The statistic is over the divisors from 2 on, and Q is taken at size - 3
    degrees of freedom. *)
Theorem C161_statistic : forall n gcd, let size := length gcd in (3 <= size <= N.to_nat 65536)%nat -> INR size * INR size <= IZR n * gnorm / 100 ->
  exists cells, gcd_chisq reals Rge_bool gnorm n gcd =
    Ok (cells, lsumR (seq 2 (size - 2)) (fun i => let x := INR (N.to_nat (nth i gcd 0%N)) in let y := gcd_expected reals gnorm n size i in (x - y) * (x - y) / y),
        N.of_nat (size - 3)).
Proof.
  intros n gcd size S H. unfold gcd_chisq. rewrite Vtest_eval_ok by (unfold gcd_cells; rewrite map_length, seq_length; fold size; lia).
  cbn [nint reals]. rewrite (used_divisors n gcd S H). fold size. eexists. cbn [N.eqb]. rewrite map_length, seq_length, sub32_small by lia.
  replace (N.of_nat (size - 2) - 1)%N with (N.of_nat (size - 3)) by lia. do 2 f_equal. f_equal.
  unfold chisq_ofA. rewrite chisq_sum, lsumR_map. cbn [nint reals]. rewrite Rplus_0_l. reflexivity.
Qed.

(** Its mean over all sequences of n samples, whatever the law of the divisors. *)
Section Mean.
Context {B : Type}.
Variable omega : list B.
Variable cell : B -> nat.
Variable size n : nat.
Hypothesis nonempty : omega <> [].
Hypothesis distinct : NoDup omega.
Hypothesis cells : forall o, In o omega -> (1 <= cell o < size)%nat.
Hypothesis Hsize : (3 <= size <= N.to_nat 65536)%nat.
Hypothesis Hn : INR size * INR size <= INR n * gnorm / 100.
Local Notation run l := (gcd_chisq reals Rge_bool gnorm (Z.of_nat n) (divisor_counts cell size l)).
Local Notation y := (gcd_expected reals gnorm (Z.of_nat n) size).
Local Notation p := (cell_share omega cell).

Lemma counts_nth l i : (i < size)%nat -> INR (N.to_nat (nth i (divisor_counts cell size l) 0%N)) = number_in cell i l.
Proof.
  intro I. unfold divisor_counts. rewrite (nth_indep _ 0%N ((fun i => N.of_nat (length (filter (fun o => Nat.eqb (cell o) i) l))) size)) by (rewrite map_length, seq_length; exact I).
  rewrite (map_nth (fun i => N.of_nat (length (filter (fun o => Nat.eqb (cell o) i) l)))), seq_nth by exact I. rewrite Nat2N.id. reflexivity.
Qed.
Lemma counts_length l : length (divisor_counts cell size l) = size.
Proof. unfold divisor_counts. now rewrite map_length, seq_length. Qed.
Lemma run_statistic l : statistic (run l) = lsumR (seq 2 (size - 2)) (fun i => (number_in cell i l - y i) * (number_in cell i l - y i) / y i).
Proof.
  destruct (C161_statistic (Z.of_nat n) (divisor_counts cell size l)) as (c & E); rewrite ?counts_length; [exact Hsize|rewrite IZR_nat; exact Hn|].
  rewrite E. cbn [statistic]. rewrite counts_length. apply lsumR_ext. intros i I. apply in_seq in I. cbv zeta. rewrite counts_nth by lia. reflexivity.
Qed.
Lemma y_pos i : In i (seq 2 (size - 2)) -> 0 < y i.
Proof. intro I. apply in_seq in I. pose proof (C161_enough (Z.of_nat n) size i ltac:(lia) ltac:(lia)) as H. rewrite IZR_nat in H. specialize (H Hn). lra. Qed.

Lemma mean_any all : lists_samples omega n all ->
  average all (fun l => statistic (run l)) = lsumR (seq 2 (size - 2)) (fun i => (INR n * p i * (1 - p i) + (INR n * p i - y i) * (INR n * p i - y i)) / y i).
Proof.
  intro A. rewrite (average_ext all _ _ (fun l _ => run_statistic l)), average_lsumR. apply lsumR_ext. intros i I. pose proof (y_pos i I) as P.
  rewrite (average_samples omega n all _ A distinct).
  rewrite (lsumR_ext _ _ (fun l => / y i * ((y i - cnt (fun o => Nat.eqb (cell o) i) l) * (y i - cnt (fun o => Nat.eqb (cell o) i) l)))) by (intros; unfold Rdiv; rewrite number_cnt; ring).
  rewrite lsumR_scale. unfold Rdiv at 1. rewrite Rmult_assoc. fold (Rdiv (lsumR (tuples omega n) (fun l => (y i - cnt (fun o => Nat.eqb (cell o) i) l) * (y i - cnt (fun o => Nat.eqb (cell o) i) l))) (INR (length omega) ^ n)).
  rewrite square_mean by exact nonempty. change (prb omega (fun o => Nat.eqb (cell o) i)) with (p i). field. lra.
Qed.
Lemma shares : p 1 + lsumR (seq 2 (size - 2)) p = 1.
Proof.
  rewrite <- (all_shares omega cell size nonempty) by (intros o O; apply cells in O; lia).
  replace (seq 0 size) with (seq 0 2 ++ seq 2 (size - 2)) by (rewrite <- seq_app; f_equal; lia). rewrite lsumR_app. cbn [seq lsumR]. replace (p 0%nat) with 0; [lra|].
  unfold cell_share, number_in. replace (filter (fun o => Nat.eqb (cell o) 0) omega) with (@nil B); [cbn; unfold Rdiv; ring|].
  symmetry. clear -cells. induction omega as [|o l IH]; [reflexivity|]. cbn [filter]. destruct (Nat.eqb_spec (cell o) 0) as [E|]; [pose proof (cells o (or_introl eq_refl)); lia|].
  apply IH. intros; apply cells; now right.
Qed.
Lemma mean_exact all : lists_samples omega n all -> (forall i, (2 <= i < size)%nat -> y i = INR n * p i) ->
  average all (fun l => statistic (run l)) = INR (size - 3) + p 1.
Proof.
  intros A E. rewrite (mean_any all A).
  rewrite (lsumR_ext _ _ (fun i => 1 + -1 * p i)).
  - rewrite lsumR_plus, lsumR_scale, lsumR_const, seq_length. pose proof shares. replace (size - 2)%nat with (S (size - 3)) by lia. rewrite S_INR.
    replace (S (size - 3)) with (size - 2)%nat by lia. lra.
  - intros i I. pose proof (y_pos i I) as P. apply in_seq in I. rewrite E in * by lia. field. split; intros Z; rewrite Z in P; lra.
Qed.
End Mean.
End Reals.

(** The mean of the statistic, whatever the law of the divisors. *)
Theorem C161_mean : forall (gnorm : R) (B : Type) (omega : list B) (cell : B -> nat) size n all, 0 < gnorm ->
  omega <> [] -> NoDup omega -> (forall o, In o omega -> (1 <= cell o < size)%nat) ->
  (3 <= size <= N.to_nat 65536)%nat -> INR size * INR size <= INR n * gnorm / 100 -> lists_samples omega n all ->
  let p := cell_share omega cell in let y := gcd_expected reals gnorm (Z.of_nat n) size in
  average all (fun l => statistic (gcd_chisq reals Rge_bool gnorm (Z.of_nat n) (divisor_counts cell size l))) =
  lsumR (seq 2 (size - 2)) (fun i => (INR n * p i * (1 - p i) + (INR n * p i - y i) * (INR n * p i - y i)) / y i).
Proof. intros. now apply mean_any. Qed.
(** Refuted: even when the expected counts are those of the law of the samples, the mean
    exceeds the number of degrees of freedom, size - 3, by the probability of
    the divisor 1, which the statistic leaves out. *)
Theorem C161_mean_refuted : forall (gnorm : R) (B : Type) (omega : list B) (cell : B -> nat) size n all, 0 < gnorm ->
  omega <> [] -> NoDup omega -> (forall o, In o omega -> (1 <= cell o < size)%nat) ->
  (3 <= size <= N.to_nat 65536)%nat -> INR size * INR size <= INR n * gnorm / 100 -> lists_samples omega n all ->
  (forall i, (2 <= i < size)%nat -> gcd_expected reals gnorm (Z.of_nat n) size i = INR n * cell_share omega cell i) ->
  (forall l, In l all -> exists cells, gcd_chisq reals Rge_bool gnorm (Z.of_nat n) (divisor_counts cell size l) =
     Ok (cells, statistic (gcd_chisq reals Rge_bool gnorm (Z.of_nat n) (divisor_counts cell size l)), N.of_nat (size - 3))) /\
  average all (fun l => statistic (gcd_chisq reals Rge_bool gnorm (Z.of_nat n) (divisor_counts cell size l))) =
  INR (size - 3) + cell_share omega cell 1.
Proof.
  intros gnorm B omega cell size n all G NE D C S H A E. split; [|now apply mean_exact].
  intros l _. destruct (C161_statistic gnorm (Z.of_nat n) (divisor_counts cell size l)) as (c & Q); rewrite ?counts_length; [exact S|rewrite IZR_nat; exact H|].
  exists c. rewrite Q at 1. rewrite counts_length. rewrite Q. cbn [statistic]. rewrite counts_length. reflexivity.
Qed.
(** Refuted: with few samples the table has at most two cells; then the statistic
    is 0 and has 2^32 - 1 degrees of freedom, whatever the numbers. *)
Theorem C161_small_refuted : forall dp de gnorm n gcd, (length gcd <= 2)%nat ->
  exists cells, gcd_chisq (doubles dp de) dge gnorm n gcd = Ok (cells, dzero, (2 ^ 32 - 1)%N).
Proof.
  intros dp de gnorm n gcd L. destruct gcd as [|a [|b [|c r]]]; cbn [length] in L; [| | |lia]; eexists; vm_compute; reflexivity.
Qed.

Lemma inverse_squares k : lsumR (seq 2 k) inverse_square <= 1 - 1 / INR (S k).
Proof.
  induction k as [|k IH]; [cbn; lra|]. replace (S k) with (k + 1)%nat at 1 by lia. rewrite seq_app, lsumR_app. cbn [seq lsumR Nat.add].
  unfold inverse_square at 2. rewrite (S_INR (S k)). assert (P : 0 < INR (S k)) by (apply lt_0_INR; lia). set (x := INR (S k)) in *.
  assert (Q : 1 / ((x + 1) * (x + 1)) <= 1 / x - 1 / (x + 1)).
  { apply Rmult_le_reg_r with (x * ((x + 1) * (x + 1))); [apply Rmult_lt_0_compat; [lra|apply Rmult_lt_0_compat; lra]|]. field_simplify; lra. }
  lra.
Qed.
(** A generator and 2000 samples: divisors 1 and 2 with probability 1/2 each, a
    norm that fits, three cells. *)
Definition ex_total : R := lsumR (seq 2 (N.to_nat 100000 - 2)) inverse_square.
Lemma ex_range : 0 < ex_total < 1.
Proof.
  unfold ex_total. split.
  - replace (N.to_nat 100000 - 2)%nat with (1 + (N.to_nat 100000 - 3))%nat by lia. generalize (N.to_nat 100000 - 3)%nat. intro m. rewrite seq_app, lsumR_app.
    cbn [seq lsumR]. pose proof (inverse_pos 2 ltac:(lia)). pose proof (lsumR_nonneg (seq (2 + 1) m) inverse_square) as H0.
    assert (0 <= lsumR (seq (2 + 1) m) inverse_square) by (apply H0; intros j J; apply in_seq in J; left; apply inverse_pos; lia). lra.
  - eapply Rle_lt_trans; [apply inverse_squares|]. assert (0 < 1 / INR (S (N.to_nat 100000 - 2))); [|lra]. apply Rdiv_lt_0_compat; [lra|apply lt_0_INR; lia].
Qed.
Example C161_ex : let gnorm := 1 / (2 * ex_total) in let omega := [false; true] in let cell (b : bool) := if b then 2%nat else 1%nat in let n := N.to_nat 2000 in
  0 < gnorm /\ omega <> [] /\ NoDup omega /\ (forall o, In o omega -> (1 <= cell o < 3)%nat) /\
  INR 3 * INR 3 <= INR n * gnorm / 100 /\ lists_samples omega n (tuples omega n) /\
  (forall i, (2 <= i < 3)%nat -> gcd_expected reals gnorm (Z.of_nat n) 3 i = INR n * cell_share omega cell i) /\
  cell_share omega cell 1 = 1 / 2.
Proof.
  intros gnorm omega cell n. pose proof ex_range as (T0 & T1).
  assert (G : 1 / 2 < gnorm). { unfold gnorm. apply Rmult_lt_reg_r with (2 * ex_total); [lra|]. replace (1 / (2 * ex_total) * (2 * ex_total)) with 1 by (field; lra). lra. }
  assert (N0 : INR n = 2000) by (unfold n; rewrite INR_IZR_INZ, N_nat_Z; reflexivity).
  split; [lra|]. split; [discriminate|]. split; [repeat constructor; cbn; intuition discriminate|]. split; [intros [|] _; cbn; lia|].
  split; [rewrite N0; cbn [INR]; lra|]. split; [|split].
  - split; [apply tuples_nodup; repeat constructor; cbn; intuition discriminate|]. intro l. apply in_tuples.
  - intros i I. assert (i = 2%nat) by lia. subst i. rewrite (C161_expected gnorm (Z.of_nat n) 3 2 I) by (clear; lia). rewrite IZR_nat.
    assert (W : divisor_weight 3 2 = ex_total) by reflexivity. assert (Q : cell_share omega cell 2 = 1 / 2) by (unfold cell_share, number_in; cbn; lra).
    rewrite W, Q. unfold gnorm. as_reals. field. lra.
  - unfold cell_share, number_in. cbn. lra.
Qed.

Print Assumptions C161_expected.
Print Assumptions C161_total.
Print Assumptions C161_enough.
Print Assumptions C161_statistic.
Print Assumptions C161_mean.
Print Assumptions C161_mean_refuted.
Print Assumptions C161_small_refuted.
