(** Theorem C147: evalMostExtreme and the p-value of dab_monobit2. *)
From Coq Require Import Lia Lra.
From Verif Require Export MostSpec.
From Verif Require Import BaseLemmas TallyLemmas OpermReal DnaBlock RunsArcs WindowLaw KsReals VtestLaw VtestVar CrapsLaw2 CountStat MostLaw PropPopcount PropChisq2 PropOrders BitdistLaw.
From Verif Require ChisqSpec.
Open Scope R_scope.

Lemma most_single p : 0 <= p <= 1 -> most [p] = 1 - p.
Proof.
  intros P. unfold most. rewrite run_start by exact P. cbn [run fold_left length pow]. unfold edge, side. destruct (Rlt_dec _ _); ring.
Qed.
(** The values are reported upside down: of a single one the complement. *)
Theorem C147_single_refuted : forall p, 0 <= p <= 1 -> evalMostExtreme reals [p] = 1 - p.
Proof.
  intros p P. rewrite most_real. now apply most_single.
Qed.
(** Complements of the values give the complement of the result. *)
Theorem C147_reverse : forall ps, ps <> [] -> (forall p, In p ps -> 0 <= p <= 1 /\ p <> 1 / 2) ->
  evalMostExtreme reals (map (fun p => 1 - p) ps) = 1 - evalMostExtreme reals ps.
Proof. intros ps NE G. rewrite !most_real. now apply most_turn. Qed.
Lemma of_tuples (omega : list R) n all f : omega <> [] -> NoDup omega -> lists_samples omega n all -> average all f = average (tuples omega n) f.
Proof. intros NE D A. rewrite (average_samples omega n all f A D). unfold average. now rewrite size_tuples. Qed.
(** The mean of the result is 1/2. *)
Theorem C147_mean : forall omega n all, symmetric_law omega -> NoDup omega -> (1 <= n)%nat -> lists_samples omega n all ->
  average all (evalMostExtreme reals) = 1 / 2.
Proof.
  intros omega n all L D N A. rewrite (of_tuples omega n all _ (proj1 L) D A). rewrite <- (mean_half omega L n N). apply average_ext. intros ps _. apply most_real.
Qed.
Lemma pow_strict a b n : 0 <= a -> a < b -> (1 <= n)%nat -> a ^ n < b ^ n.
Proof.
  intros A B N. induction n as [|[|n] IH]; [lia|cbn; lra|]. specialize (IH ltac:(lia)). cbn [pow] in *. assert (0 <= a * a ^ n) by (apply Rmult_le_pos; [exact A|now apply pow_le]).
  apply Rle_lt_trans with (a * (b * b ^ n)); [apply Rmult_le_compat_l; lra|]. apply Rmult_lt_compat_r; [|exact B]. lra.
Qed.
Lemma pow_iff a b n : 0 <= a -> 0 <= b -> (1 <= n)%nat -> (a ^ n < b ^ n <-> a < b).
Proof.
  intros A B N. split; intro H; [|now apply pow_strict]. destruct (Rlt_dec a b) as [|W]; [assumption|]. exfalso. assert (b ^ n <= a ^ n) by (apply pow_incr; lra). lra.
Qed.
Section Tails.
Variable omega : list R.
Variable n : nat.
Variable all : list (list R).
Hypothesis law : symmetric_law omega.
Hypothesis distinct : NoDup omega.
Hypothesis some : (1 <= n)%nat.
Hypothesis every : lists_samples omega n all.
Lemma ext_range ps : In ps (tuples omega n) -> 0 <= ext ps <= 1 / 2.
Proof. intro I. apply run_range; [eapply ne_tuple|eapply good_tuple]; eassumption. Qed.
Lemma most_cases ps : In ps (tuples omega n) -> most ps = if plus ps then 1 - (1 - ext ps) ^ n else (1 - ext ps) ^ n.
Proof. intro I. apply in_tuples in I. destruct I as (L & _). unfold most, ext, plus. destruct (run ps (1, true)) as [e s]. cbn [fst snd]. now rewrite L. Qed.
Lemma below_sum r F G : (forall ps, In ps (tuples omega n) -> if plus ps then (if Rlt_dec (most ps) r then 1 else 0) = F (ext ps) else (if Rlt_dec (most ps) r then 1 else 0) = G (ext ps)) ->
  below all r = average (tuples omega n) (fun l => F (ext l)) / 2 + average (tuples omega n) (fun l => G (ext l)) / 2.
Proof.
  intro H. unfold below. rewrite (of_tuples omega n all _ (proj1 law) distinct every).
  rewrite <- (proj1 (half omega law F n some)), <- (proj2 (half omega law G n some)), <- average_plus. apply average_ext. intros ps I. rewrite most_real. specialize (H ps I). destruct (plus ps); rewrite H; ring.
Qed.
Lemma less_share x : x <= 1 -> average (tuples omega n) (fun l => if Rlt_dec (ext l) x then 1 else 0) = 1 - far omega x ^ n.
Proof.
  intro X. rewrite <- (far_law omega law x n some X). rewrite (average_ext _ _ (fun l => 1 - (if Rle_dec x (ext l) then 1 else 0))) by (intros l _; destruct (Rlt_dec _ _), (Rle_dec _ _); lra).
  rewrite average_minus, average_const by (apply tuples_ne, law). reflexivity.
Qed.
Lemma tail_law x y r : 0 <= x <= 1 -> 0 <= y < 1 -> r = 1 - (1 - x) ^ n -> r = (1 - y) ^ n -> below all r = (1 - far omega x ^ n) / 2 + farther omega y ^ n / 2.
Proof.
  intros X Y R1 R2. rewrite <- (less_share x) by lra. rewrite <- (farther_law omega law y n some) by lra.
  apply (below_sum r (fun e => if Rlt_dec e x then 1 else 0) (fun e => if Rlt_dec y e then 1 else 0)). intros ps I. pose proof (ext_range ps I) as E. rewrite (most_cases ps I). destruct (plus ps).
  - rewrite R1. destruct (Rlt_dec (ext ps) x) as [H|H]; destruct (Rlt_dec _ _) as [G|G]; try reflexivity; exfalso.
    + apply G. assert ((1 - x) ^ n < (1 - ext ps) ^ n) by (apply pow_strict; (lra || assumption)). lra.
    + apply H. assert (Q : (1 - x) ^ n < (1 - ext ps) ^ n) by lra. apply pow_iff in Q; (lra || assumption).
  - rewrite R2. destruct (Rlt_dec y (ext ps)) as [H|H]; destruct (Rlt_dec _ _) as [G|G]; try reflexivity; exfalso.
    + apply G. apply pow_strict; (lra || assumption).
    + apply H. apply pow_iff in G; (lra || assumption).
Qed.
Lemma small_law x : 0 <= x <= 1 -> 1 - (1 - x) ^ n <= (1 / 2) ^ n -> below all (1 - (1 - x) ^ n) = (1 - far omega x ^ n) / 2.
Proof.
  intros X S. rewrite <- (less_share x) by lra.
  rewrite (below_sum _ (fun e => if Rlt_dec e x then 1 else 0) (fun e => 0)); [rewrite average_zero; lra|]. intros ps I. pose proof (ext_range ps I) as E. rewrite (most_cases ps I). destruct (plus ps).
  - destruct (Rlt_dec (ext ps) x) as [H|H]; destruct (Rlt_dec _ _) as [G|G]; try reflexivity; exfalso.
    + apply G. assert ((1 - x) ^ n < (1 - ext ps) ^ n) by (apply pow_strict; (lra || assumption)). lra.
    + apply H. assert (Q : (1 - x) ^ n < (1 - ext ps) ^ n) by lra. apply pow_iff in Q; (lra || assumption).
  - destruct (Rlt_dec _ _) as [G|G]; [|reflexivity]. exfalso. assert ((1 / 2) ^ n <= (1 - ext ps) ^ n) by (apply pow_incr; lra). lra.
Qed.
End Tails.
(** The probability that the result is below r = 1-(1-x)^n = (1-y)^n. *)
Theorem C147_tail : forall omega n all x y r, symmetric_law omega -> NoDup omega -> (1 <= n)%nat -> lists_samples omega n all ->
  0 <= x <= 1 -> 0 <= y < 1 -> r = 1 - (1 - x) ^ n -> r = (1 - y) ^ n ->
  below all r = (1 - far omega x ^ n) / 2 + farther omega y ^ n / 2.
Proof. intros omega n all x y r L D N A X Y R1 R2. exact (tail_law omega n all L D N A x y r X Y R1 R2). Qed.
(** That it is below r = 1-(1-x)^n, when r is at most 2^-n. *)
Theorem C147_small : forall omega n all x, symmetric_law omega -> NoDup omega -> (1 <= n)%nat -> lists_samples omega n all ->
  0 <= x <= 1 -> 1 - (1 - x) ^ n <= (1 / 2) ^ n -> below all (1 - (1 - x) ^ n) = (1 - far omega x ^ n) / 2.
Proof. intros omega n all x L D N A X S. exact (small_law omega n all L D N A x X S). Qed.

Lemma mean_power s n : 0 <= s <= 1 -> ((1 + s) / 2) ^ n <= (1 + s ^ n) / 2.
Proof.
  intro S. induction n as [|n IH]; [cbn; lra|]. cbn [pow]. apply Rle_trans with ((1 + s) / 2 * ((1 + s ^ n) / 2)); [apply Rmult_le_compat_l; lra|].
  assert (Q : 0 <= s ^ n <= 1) by (split; [apply pow_le; lra|rewrite <- (pow1 n); apply pow_incr; lra]). nra.
Qed.
Lemma uniform_bounds x y n r s t : 0 <= x <= 1 / 2 -> 0 <= y <= 1 / 2 -> r = 1 - (1 - x) ^ n -> r = (1 - y) ^ n -> s = 1 - 2 * x -> t = 1 - 2 * y ->
  r - r ^ 2 / 2 <= (1 - s ^ n) / 2 /\ (1 - s ^ n) / 2 <= r /\ 0 <= t ^ n / 2 <= r ^ 2 / 2.
Proof.
  intros X Y R1 R2 S T. assert (A : s ^ n <= (1 - r) ^ 2).
  { replace (1 - r) with ((1 - x) ^ n) by lra. rewrite <- pow_mult, Nat.mul_comm, pow_mult. apply pow_incr. split; [lra|]. subst s. nra. }
  assert (B : t ^ n <= r ^ 2).
  { rewrite R2. rewrite <- pow_mult, Nat.mul_comm, pow_mult. apply pow_incr. split; [lra|]. subst t. nra. }
  assert (C : (1 - x) ^ n <= (1 + s ^ n) / 2). { replace (1 - x) with ((1 + s) / 2) by (subst s; lra). apply mean_power. lra. }
  assert (0 <= t ^ n) by (apply pow_le; lra). split; [nra|]. split; [lra|]. lra.
Qed.
(** For values that are x-far from the ends with probability 1-2x, as uniform ones
    are, the result is below r with a probability between r-r^2/2 and r+r^2/2. *)
Theorem C147_uniform : forall omega n all x y r, symmetric_law omega -> NoDup omega -> (1 <= n)%nat -> lists_samples omega n all ->
  0 <= x <= 1 / 2 -> 0 <= y <= 1 / 2 -> r = 1 - (1 - x) ^ n -> r = (1 - y) ^ n -> far omega x = 1 - 2 * x -> farther omega y = 1 - 2 * y ->
  r - r ^ 2 / 2 <= below all r <= r + r ^ 2 / 2.
Proof.
  intros omega n all x y r L D N A X Y R1 R2 F1 F2. rewrite (C147_tail omega n all x y r L D N A) by (assumption || lra).
  destruct (uniform_bounds x y n r _ _ X Y R1 R2 F1 F2) as (B1 & B2 & B3). rewrite F1, F2 in *. lra.
Qed.
(** And for r up to 2^-n between r-r^2/2 and r. *)
Theorem C147_uniform_small : forall omega n all x, symmetric_law omega -> NoDup omega -> (1 <= n)%nat -> lists_samples omega n all ->
  0 <= x <= 1 / 2 -> far omega x = 1 - 2 * x -> let r := 1 - (1 - x) ^ n in r <= (1 / 2) ^ n ->
  r - r ^ 2 / 2 <= below all r <= r.
Proof.
  intros omega n all x L D N A X F r S. unfold r in *. rewrite (C147_small omega n all x L D N A) by (assumption || lra). rewrite F. set (s := 1 - 2 * x).
  assert (AA : s ^ n <= ((1 - x) ^ n) ^ 2). { rewrite <- pow_mult, Nat.mul_comm, pow_mult. apply pow_incr. unfold s. split; [lra|nra]. }
  assert (C : (1 - x) ^ n <= (1 + s ^ n) / 2). { replace (1 - x) with ((1 + s) / 2) by (unfold s; lra). apply mean_power. unfold s. lra. }
  split; nra.
Qed.

(** gsl_ran_binomial_pdf(k,0.5,n) computes the binomial law *)
Definition half_law (pdf : N -> N -> R) : Prop := forall k n, (k <= n)%N -> pdf k n = ChisqSpec.binomial (N.to_nat n) (1 / 2) (N.to_nat k).
Lemma pow2_le j : (j <= 14)%nat -> (2 ^ N.of_nat j <= 2 ^ 14)%N.
Proof. intro J. apply N.pow_le_mono_r; lia. Qed.
Lemma bits_of w j : (0 < w <= 32)%nat -> (j <= 14)%nat -> block_bits (N.of_nat w) (N.of_nat j) = (N.of_nat w * (2 * 2 ^ N.of_nat j))%N.
Proof.
  intros W J. pose proof (pow2_le j J). unfold block_bits, mul32. apply N.mod_small. change (2 ^ 14)%N with 16384%N in *. nia.
Qed.
Lemma region_length w counts j ntup : (0 < w <= 32)%nat -> (ntup <= 15)%nat -> (j < ntup)%nat -> length counts = (w * 2 ^ S ntup)%nat ->
  length (region (N.of_nat w) counts j) = N.to_nat (block_bits (N.of_nat w) (N.of_nat j) + 1).
Proof.
  intros W T J L. unfold region. rewrite firstn_length, skipn_length, L. rewrite bits_of by lia. apply Nat.min_l.
  assert (E : (N.to_nat (2 * 2 ^ N.of_nat j) = 2 ^ S j)%nat). { replace (2 * 2 ^ N.of_nat j)%N with (2 ^ N.of_nat (S j))%N by (rewrite Nat2N.inj_succ, N.pow_succ_r'; reflexivity). rewrite <- (Nat2N.id (2 ^ S j)). f_equal. clear. generalize (S j). intro k. induction k as [|k IH]; [reflexivity|]. rewrite Nat2N.inj_succ, N.pow_succ_r', IH. cbn [Nat.pow]. lia. }
  assert (P : (2 ^ S (S j) <= 2 ^ S ntup)%nat) by (apply Nat.pow_le_mono_r; lia). cbn [Nat.pow] in *. set (q := (2 ^ j)%nat) in *. assert (1 <= q)%nat by (unfold q; apply Nat.neq_0_lt_0, Nat.pow_nonzero; lia).
  set (b := (2 * 2 ^ N.of_nat j)%N) in *. set (t := (2 ^ ntup)%nat) in *. clearbody b q t. nia.
Qed.
(** the expected and observed numbers of blocks of level j with k ones, and those
    of more than ten blocks *)
Definition level_bins (w : nat) (tsamples : N) (counts : list N) (j : nat) : list (R * R) :=
  ChisqSpec.against (map (fun x => INR (N.to_nat x)) (region (N.of_nat w) counts j)) (INR (N.to_nat (block_number tsamples (N.of_nat j)))) (ChisqSpec.binomial (w * 2 ^ S j) (1 / 2)).
Definition level_used (w : nat) (tsamples : N) (counts : list N) (j : nat) : list (R * R) :=
  filter (fun b => if Rlt_dec 10 (fst b) then true else false) (level_bins w tsamples counts j).
Lemma two_S j : N.to_nat (2 * 2 ^ N.of_nat j) = (2 ^ S j)%nat.
Proof.
  replace (2 * 2 ^ N.of_nat j)%N with (2 ^ N.of_nat (S j))%N by (rewrite Nat2N.inj_succ, N.pow_succ_r'; reflexivity).
  rewrite <- (Nat2N.id (2 ^ S j)). f_equal. generalize (S j). intro k. induction k as [|k IH]; [reflexivity|]. rewrite Nat2N.inj_succ, N.pow_succ_r', IH. cbn [Nat.pow]. lia.
Qed.
Lemma kept_le {B} (f : B -> bool) l : (length (filter f l) <= length l)%nat.
Proof. induction l as [|b l IH]; cbn; [lia|]. destruct (f b); cbn; lia. Qed.
Lemma level_eval Q pdf w ntup tsamples counts j : half_law pdf -> (0 < w <= 32)%nat -> (ntup <= 15)%nat -> (j < ntup)%nat -> length counts = (w * 2 ^ S ntup)%nat ->
  exists p, level_p reals Q pdf (N.of_nat w) tsamples counts j = Ok p /\
    (level_used w tsamples counts j <> [] ->
     p = Q ((INR (length (level_used w tsamples counts j)) - 1) / 2) (ChisqSpec.pearson (level_used w tsamples counts j) / 2)).
Proof.
  intros law W T J L. unfold level_p. pose proof (region_length w counts j ntup W T J L) as RL.
  assert (KE : N.to_nat (block_bits (N.of_nat w) (N.of_nat j)) = (w * 2 ^ S j)%nat) by (rewrite bits_of by lia; rewrite N2Nat.inj_mul, two_S, Nat2N.id; reflexivity).
  assert (KB : (block_bits (N.of_nat w) (N.of_nat j) < 2 ^ 32 - 1)%N).
  { rewrite bits_of by lia. pose proof (pow2_le j). change (2 ^ 14)%N with 16384%N in *. nia. }
  set (kmax := block_bits (N.of_nat w) (N.of_nat j)) in *. set (nsamp := block_number tsamples (N.of_nat j)). set (obs := map _ (region (N.of_nat w) counts j)).
  assert (OL : length obs = N.to_nat (kmax + 1)) by (unfold obs; rewrite map_length; exact RL).
  pose proof (binomial_fold reals Q (fun k => pdf (Z.to_N k) kmax) obs kmax nsamp OL KB) as E. cbv zeta in E. rewrite E. eexists. split; [reflexivity|]. intro NE.
  assert (U : filter (PropChisq2.counted reals) (binom_bins reals (fun k => pdf (Z.to_N k) kmax) obs nsamp) = level_used w tsamples counts j).
  { unfold level_used, level_bins, ChisqSpec.against, binom_bins, PropChisq2.counted. change (num reals) with R. f_equal. f_equal.
    - unfold obs. apply map_ext. intro x. change (nint reals) with IZR. rewrite INR_IZR_INZ, N_nat_Z. reflexivity.
    - unfold obs. rewrite !map_length. apply map_ext_in. intros k K. apply in_seq in K. rewrite RL in K. rewrite law by lia.
      change (nmul reals) with Rmult. change (nint reals) with IZR. change (num reals) with R. f_equal.
      + fold nsamp. rewrite INR_IZR_INZ, N_nat_Z. reflexivity.
      + rewrite KE. f_equal. lia. }
  rewrite U, ChisqLemmas.fold_real. change (nint reals) with IZR. change (ndiv reals) with Rdiv. change (num reals) with R. do 2 f_equal.
  assert (Lu : (length (level_used w tsamples counts j) <= length obs)%nat).
  { unfold level_used. eapply Nat.le_trans; [apply kept_le|]. unfold level_bins, ChisqSpec.against. rewrite combine_length. unfold obs. rewrite !map_length. apply Nat.le_min_l. }
  assert (1 <= length (level_used w tsamples counts j))%nat by (destruct (level_used w tsamples counts j); [congruence|cbn; lia]).
  rewrite sub32_small by lia. rewrite N2Z.inj_sub by lia. rewrite minus_IZR, nat_N_Z, <- INR_IZR_INZ. reflexivity.
Qed.
(** With 1 to 15 levels the test never leaves its table; the result combines one
    Pearson p-value per level, over the numbers of ones with more than ten blocks. *)
Theorem C147_levels : forall Q pdf g w ntup tsamples c, half_law pdf -> (0 < w <= 32)%nat -> (0 < ntup <= 15)%nat ->
  (forall i, (g i < 2 ^ N.of_nat w)%N) -> (N.of_nat tsamples < 2 ^ 32)%N ->
  exists counts ps, monobit2 g ntup (N.of_nat w) tsamples c = Ok counts /\
    dab_monobit2 reals Q pdf g (N.of_nat ntup) (N.of_nat w) tsamples c = Ok (evalMostExtreme reals ps) /\ length ps = ntup /\
    forall j, (j < ntup)%nat -> let used := level_used w (N.of_nat tsamples) counts j in
      used <> [] -> nth j ps 0 = Q ((INR (length used) - 1) / 2) (ChisqSpec.pearson used / 2).
Proof.
  intros Q pdf g w ntup tsamples c law W T G S32. destruct (C68_blocks g w ntup tsamples c W (proj2 T) G S32) as (counts & E & L & _). exists counts.
  assert (H : forall n j0, (j0 + n <= ntup)%nat -> exists ps, level_ps reals Q pdf (N.of_nat w) (N.of_nat tsamples) counts n j0 = Ok ps /\ length ps = n /\
     forall j, (j < n)%nat -> let used := level_used w (N.of_nat tsamples) counts (j0 + j) in
      used <> [] -> nth j ps 0 = Q ((INR (length used) - 1) / 2) (ChisqSpec.pearson used / 2)).
  { induction n as [|n IH]; intros j0 B; cbn [level_ps].
    - exists []. repeat split. intros j J. lia.
    - destruct (level_eval Q pdf w ntup (N.of_nat tsamples) counts j0 law W (proj2 T)) as (p & P & PV); [lia|exact L|]. rewrite P. cbn [bind].
      destruct (IH (S j0)) as (ps & PS & PL & PN); [lia|]. rewrite PS. cbn [bind]. exists (p :: ps). split; [reflexivity|]. split; [cbn [length]; now f_equal|].
      intros [|j] J; cbn [nth].
      + rewrite Nat.add_0_r. exact PV.
      + replace (j0 + S j)%nat with (S j0 + j)%nat by lia. apply PN. lia. }
  destruct (H ntup 0%nat) as (ps & PS & PL & PN); [lia|]. exists ps. split; [exact E|]. split; [|split; [exact PL|exact PN]].
  unfold dab_monobit2. destruct (N.leb_spec 16 (N.of_nat ntup)); [lia|]. destruct (N.eqb_spec (N.of_nat ntup) 0); [lia|]. rewrite Nat2N.id, E. cbn [bind]. rewrite PS. reflexivity.
Qed.
(** -n 16 and more end the program with status 0. *)
Theorem C147_limit : forall A Q pdf g ntuple w tsamples c, (16 <= ntuple)%N -> dab_monobit2 A Q pdf g ntuple w tsamples c = Exit 0.
Proof. intros A Q pdf g ntuple w tsamples c L. unfold dab_monobit2. destruct (N.leb_spec 16 ntuple); [reflexivity|lia]. Qed.
(** By default, with too few samples for one level, the p-value is 0 for every
    generator. *)
Theorem C147_none_refuted : forall Q pdf g w tsamples c, (0 < w <= 32)%nat ->
  (forall i, (g i < 2 ^ N.of_nat w)%N) -> (N.of_nat tsamples < 2 ^ 32)%N ->
  INR (tsamples / 2) * pdf (N.of_nat w) (N.of_nat (2 * w)) < 20 ->
  dab_monobit2 reals Q pdf g 0 (N.of_nat w) tsamples c = Ok 0.
Proof.
  intros Q pdf g w tsamples c W G S32 F. unfold dab_monobit2. change (16 <=? 0)%N with false. change (0 =? 0)%N with true. cbv iota.
  assert (CH : choose_ntup reals pdf 16 0 (N.of_nat w) (N.of_nat tsamples) = 0%N).
  { cbn [choose_ntup]. replace (block_bits (N.of_nat w) 0) with (N.of_nat (2 * w)) by (change 0%N with (N.of_nat 0); rewrite bits_of by lia; cbn; lia).
    replace (N.of_nat (2 * w) / 2)%N with (N.of_nat w) by (rewrite Nat2N.inj_mul, N.mul_comm, N.div_mul; [reflexivity|discriminate]).
    replace (block_number (N.of_nat tsamples) 0) with (N.of_nat (tsamples / 2)).
    2: { unfold block_number. change (2 * 2 ^ 0)%N with (N.of_nat 2). now rewrite Nnat.Nat2N.inj_div. }
    change (ngt reals) with (fun x y : R => if Rlt_dec y x then true else false). cbv beta. change (nint reals) with IZR. change (nmul reals) with Rmult. change (num reals) with R.
    rewrite nat_N_Z, <- INR_IZR_INZ. destruct (Rlt_dec _ _); [reflexivity|contradiction]. }
  rewrite CH. change (N.to_nat 0) with 0%nat. destruct (C68_blocks g w 0 tsamples c W) as (counts & E & _); [lia|exact G|exact S32|]. rewrite E. cbn [bind level_ps].
  f_equal. rewrite most_real. unfold most. cbn. ring.
Qed.
Lemma fact_IZR n : INR (fact n) = IZR (Z.of_N (factorial n)).
Proof. rewrite factorial_fact, nat_N_Z. apply INR_IZR_INZ. Qed.
Lemma central : 201 * ChisqSpec.binomial 64 (1 / 2) 32 < 20.
Proof.
  unfold ChisqSpec.binomial. change (64 - 32)%nat with 32%nat. rewrite !fact_IZR. set (a := Z.of_N (factorial 64)). set (b := Z.of_N (factorial 32)).
  assert (C : (a = 1832624140942590534 * (b * b))%Z) by (vm_compute; reflexivity). assert (B : (0 < b)%Z) by (vm_compute; reflexivity). clearbody a b. rewrite C, !mult_IZR.
  apply IZR_lt in B. replace (1 - 1 / 2) with (/ 2) by field. replace (1 / 2) with (/ 2) by field. rewrite !pow_inv by lra. replace (2 ^ 32) with 4294967296 by ring.
  replace (1832624140942590534 * (IZR b * IZR b) / (IZR b * IZR b)) with 1832624140942590534 by (field; lra). lra.
Qed.
(** 32-bit generators: with fewer than 404 samples. *)
Theorem C147_few_refuted : forall Q pdf g tsamples c, half_law pdf -> (forall i, (g i < 2 ^ 32)%N) -> (tsamples <= 403)%nat ->
  dab_monobit2 reals Q pdf g 0 32 tsamples c = Ok 0.
Proof.
  intros Q pdf g tsamples c law G T. apply (C147_none_refuted Q pdf g 32 tsamples c); [lia|exact G|change (2 ^ 32)%N with 4294967296%N; lia|].
  rewrite law by lia. rewrite !Nat2N.id. change (2 * 32)%nat with 64%nat. apply Rle_lt_trans with (2 := central). apply Rmult_le_compat_r.
  - unfold ChisqSpec.binomial. rewrite !fact_IZR. change (64 - 32)%nat with 32%nat. set (a := Z.of_N (factorial 64)). set (b := Z.of_N (factorial 32)).
    assert (0 < a)%Z by (vm_compute; reflexivity). assert (0 < b)%Z by (vm_compute; reflexivity). clearbody a b. apply IZR_lt in H, H0.
    assert (0 <= (1 / 2) ^ 32) by (apply pow_le; lra). assert (0 <= (1 - 1 / 2) ^ 32) by (apply pow_le; lra). repeat apply Rmult_le_pos; try lra. left. apply Rinv_0_lt_compat. now apply Rmult_lt_0_compat.
  - replace 201 with (INR 201) by (cbn; lra). apply le_INR. apply Nat.lt_succ_r. apply Nat.div_lt_upper_bound; lia.
Qed.

(** Ten values satisfy the hypotheses, two at a time; and the binomial law those on
    gsl_ran_binomial_pdf. *)
Definition ten : list R := [1/20; 3/20; 5/20; 7/20; 9/20; 11/20; 13/20; 15/20; 17/20; 19/20].
Lemma ten_nodup : NoDup ten.
Proof. unfold ten. repeat (constructor; [cbn [In]; intuition lra|]). constructor. Qed.
Example C147_ex : symmetric_law ten /\ NoDup ten /\ lists_samples ten 2 (tuples ten 2) /\
  16 / 25 = 1 - (1 - 2 / 5) ^ 2 /\ 16 / 25 = (1 - 1 / 5) ^ 2 /\ far ten (2 / 5) = 1 - 2 * (2 / 5) /\ farther ten (1 / 5) = 1 - 2 * (1 / 5) /\
  half_law (fun k n => ChisqSpec.binomial (N.to_nat n) (1 / 2) (N.to_nat k)).
Proof.
  split; [|split; [apply ten_nodup|]].
  { split; [discriminate|]. split.
    - replace (map (fun p => 1 - p) ten) with (rev ten); [apply Permutation_sym, Permutation_rev|]. unfold ten. cbn. repeat (apply f_equal2; [lra|]). reflexivity.
    - intros p P. unfold ten in P. cbn [In] in P. intuition lra. }
  split.
  { split; [apply tuples_nodup, ten_nodup|]. intro l. apply in_tuples. }
  split; [lra|]. split; [lra|]. split; [|split; [|intros k n K; reflexivity]].
  - unfold far, average, ten, lsumR. cbn [map fold_right length]. repeat (destruct (Rle_dec _ _); try (exfalso; lra)). cbn. lra.
  - unfold farther, average, ten, lsumR. cbn [map fold_right length]. repeat (destruct (Rlt_dec _ _); try (exfalso; lra)). cbn. lra.
Qed.

Print Assumptions C147_single_refuted.
Print Assumptions C147_reverse.
Print Assumptions C147_mean.
Print Assumptions C147_tail.
Print Assumptions C147_small.
Print Assumptions C147_uniform.
Print Assumptions C147_uniform_small.
Print Assumptions C147_levels.
Print Assumptions C147_limit.
Print Assumptions C147_none_refuted.
Print Assumptions C147_few_refuted.
