(** Theorem C144: the variance of Vtest's statistic. *)
From Coq Require Import Lia Lra Permutation.
From Verif Require Import BaseLemmas OpermReal DnaBlock RunsArcs WindowLaw CrapsLaw2 KsReals WordCode VtestArithLemmas VtestLaw VtestVar PropVtestLaw.
From Verif Require MissingLaw.
From Verif Require Export VtestVarSpec.
Open Scope R_scope.

Lemma rsum_first n f : rsum (S n) f = f 0%nat + rsum n (fun k => f (S k)).
Proof. induction n as [|n IH]; [cbn; ring|]. cbn [rsum] in *. rewrite IH. ring. Qed.
Lemma rsum_nth {X} (d : X) (F : X -> R) l : rsum (length l) (fun j => F (nth j l d)) = lsumR l F.
Proof.
  induction l as [|x l IH]; [reflexivity|]. cbn [length]. rewrite rsum_first. cbn [nth lsumR]. now rewrite IH.
Qed.
Section Law.
Context {B : Type}.
Variable omega : list B.
Variable cell : B -> nat.
Variable k n : nat.
Variable cutoff : R.
Hypothesis nonempty : omega <> [].
Hypothesis distinct : NoDup omega.
Hypothesis cells : forall o, In o omega -> (cell o < k)%nat.
Hypothesis samples : (1 <= n)%nat.
Hypothesis positive : 0 < cutoff.
Local Notation bigs := (bigs omega cell k n cutoff).
Local Notation smals := (smals omega cell k n cutoff).
Local Notation small_share := (small_share omega cell k n cutoff).
Definition groups : list (B -> bool) :=
  map (fun i o => Nat.eqb (cell o) i) bigs ++ if Rle_dec cutoff (INR n * small_share) then [inside cell smals] else [].
Definition g (j : nat) : B -> bool := nth j groups (fun _ => false).
Lemma small_prb : small_share = prb omega (inside cell smals).
Proof. change small_share with (lsumR smals (cell_share omega cell)). apply share_group. apply NoDup_filter, seq_NoDup. Qed.
Lemma groups_length : length groups = terms omega cell k n cutoff.
Proof. unfold groups, terms. rewrite app_length, map_length. fold bigs. destruct (Rle_dec _ _); reflexivity. Qed.
Lemma groups_sum (F : R -> R) : lsumR groups (fun b => F (prb omega b)) = lsumR (term_shares omega cell k n cutoff) F.
Proof.
  unfold groups, term_shares. rewrite !VtestLaw.lsumR_app, !VtestLaw.lsumR_map. fold bigs. f_equal. destruct (Rle_dec _ _); [|reflexivity]. cbn [lsumR]. now rewrite small_prb.
Qed.
Lemma groups_chisq l : chisq_ofA reals (usedA reals Rge_bool cutoff (vtable omega cell k n l)) = lsumR groups (fun b => pearson (cnt b l, INR n * prb omega b)).
Proof.
  rewrite chisq_used by assumption. unfold groups. rewrite VtestLaw.lsumR_app, VtestLaw.lsumR_map. f_equal. destruct (Rle_dec _ _); cbn [lsumR]; ring.
Qed.
Lemma groups_positive b : In b groups -> 0 < prb omega b.
Proof.
  intro I. apply in_app_or in I. destruct I as [I|I].
  - apply in_map_iff in I. destruct I as (i & <- & I). unfold bigs in I. apply filter_In in I. destruct I as (_ & I). unfold big, Rge_bool in I.
    destruct (Rle_dec _ _) as [L|]; [|discriminate]. exact (ge_pos n cutoff samples positive _ L).
  - destruct (Rle_dec _ _) as [L|]; [destruct I as [<-|[]]|destruct I]. rewrite small_prb in L. exact (ge_pos n cutoff samples positive _ L).
Qed.
Lemma total_share : lsumR groups (prb omega) = 1 - left_out omega cell k n cutoff.
Proof.
  pose proof (all_shares omega cell k nonempty cells) as T. rewrite (VtestLaw.lsumR_filter (big omega cell n cutoff)) in T. fold bigs in T.
  change (lsumR (filter (fun x => negb (big omega cell n cutoff x)) (seq 0 k)) (cell_share omega cell)) with small_share in T.
  unfold groups. rewrite VtestLaw.lsumR_app, VtestLaw.lsumR_map.
  change (lsumR bigs (fun x => prb omega (fun o => Nat.eqb (cell o) x))) with (lsumR bigs (cell_share omega cell)). unfold left_out. destruct (Rle_dec _ _); cbn [lsumR]; rewrite <- ?small_prb; lra.
Qed.
Lemma in_smals i : In i smals -> ~ In i bigs.
Proof. intros S Bg. unfold smals in S. unfold bigs in Bg. apply filter_In in S, Bg. destruct S as (_ & S), Bg as (_ & Bg). rewrite Bg in S. discriminate. Qed.
Lemma g_disjoint i j o : (i < length groups)%nat -> (j < length groups)%nat -> g i o = true -> g j o = true -> i = j.
Proof.
  assert (G : forall i, (i < length groups)%nat -> g i o = true -> ((i < length bigs)%nat /\ nth i bigs 0%nat = cell o) \/ (i = length bigs /\ In (cell o) smals)).
  { intros m M E. unfold g, groups in E. destruct (Nat.lt_ge_cases m (length bigs)) as [L|L].
    - left. split; [exact L|]. rewrite app_nth1 in E by now rewrite map_length. rewrite (nth_indep _ _ (fun o => Nat.eqb (cell o) 0)) in E by now rewrite map_length.
      rewrite (map_nth (fun i o => Nat.eqb (cell o) i)) in E. apply Nat.eqb_eq in E. now symmetry.
    - right. rewrite app_nth2 in E by now rewrite map_length. rewrite map_length in E. unfold groups in M. rewrite app_length, map_length in M. destruct (Rle_dec _ _); cbn [length] in M; [|lia].
      assert (m = length bigs) by lia. split; [assumption|]. replace (m - length bigs)%nat with 0%nat in E by lia. cbn [nth] in E. unfold inside in E. apply existsb_exists in E. destruct E as (x & X & E). apply Nat.eqb_eq in E. now rewrite E. }
  intros Hi Hj Ei Ej. destruct (G i Hi Ei) as [(Li & Ni)|(Li & Ni)], (G j Hj Ej) as [(Lj & Nj)|(Lj & Nj)].
  - assert (D : NoDup bigs) by apply NoDup_filter, seq_NoDup. apply (proj1 (NoDup_nth bigs 0%nat) D i j Li Lj). congruence.
  - exfalso. apply (in_smals _ Nj). rewrite <- Ni. now apply nth_In.
  - exfalso. apply (in_smals _ Ni). rewrite <- Nj. now apply nth_In.
  - congruence.
Qed.
Theorem variance_law all : lists_samples omega n all ->
  average all (fun l => (chisq_ofA reals (usedA reals Rge_bool cutoff (vtable omega cell k n l)) - (INR (terms omega cell k n cutoff) - 1 + left_out omega cell k n cutoff)) ^ 2) = vtest_variance omega cell k n cutoff.
Proof.
  intro A. pose proof (average_samples omega n all) as AS. assert (NP : 0 < INR n) by (apply lt_0_INR; lia).
  assert (AT : forall f, average all f = average (tuples omega n) f) by (intro f; rewrite AS by assumption; unfold average; now rewrite size_tuples).
  rewrite AT. set (q := left_out omega cell k n cutoff). set (m := INR (terms omega cell k n cutoff)).
  assert (GP : forall i, (i < length groups)%nat -> 0 < prb omega (g i)) by (intros i Hi; apply groups_positive, nth_In; exact Hi).
  pose proof (Q_moments omega nonempty g (length groups) (fun i j o _ Hi Hj => g_disjoint i j o Hi Hj) GP n) as (_ & V).
  assert (EP : P omega g (length groups) = 1 - q).
  { unfold P, VtestVar.p, g. rewrite (rsum_nth (fun _ => false) (prb omega) groups). apply total_share. }
  assert (EI : rsum (length groups) (fun i => / VtestVar.p omega g i) = lsumR (term_shares omega cell k n cutoff) Rinv).
  { unfold VtestVar.p, g. rewrite (rsum_nth (fun _ => false) (fun b => / prb omega b) groups). apply (groups_sum Rinv). }
  rewrite EP, EI, groups_length in V. fold m in V.
  rewrite (average_ext _ _ (fun l => / INR n ^ 2 * (Q omega g (terms omega cell k n cutoff) n l - INR n * (m - (1 - q))) ^ 2)).
  - rewrite average_scale, V. unfold vtest_variance. fold m q. field. lra.
  - intros l _. rewrite groups_chisq. assert (E : lsumR groups (fun b => pearson (cnt b l, INR n * prb omega b)) = / INR n * Q omega g (terms omega cell k n cutoff) n l).
    { unfold Q, VtestVar.p, g. rewrite <- groups_length. rewrite (rsum_nth (fun _ => false) (fun b => (cnt b l - INR n * prb omega b) ^ 2 / prb omega b) groups). rewrite <- lsumR_scale. apply lsumR_ext. intros b Bi.
      pose proof (groups_positive b Bi). unfold pearson. cbn [fst snd]. field. lra. }
    rewrite E. field. lra.
Qed.
(** Cauchy's inequality for the shares, and their lower bound *)
Lemma inverses_le : lsumR (term_shares omega cell k n cutoff) Rinv <= INR (terms omega cell k n cutoff) * (INR n / cutoff).
Proof.
  assert (NP : 0 < INR n) by (apply lt_0_INR; lia). rewrite <- (groups_sum Rinv), <- groups_length.
  replace (INR (length groups) * (INR n / cutoff)) with (lsumR groups (fun _ => INR n / cutoff)) by (rewrite MissingLaw.lsumR_const; ring).
  apply DnaBlock.lsumR_le. intros b Bi. pose proof (groups_positive b Bi) as Pb.
  assert (G : cutoff <= INR n * prb omega b).
  { apply in_app_or in Bi. destruct Bi as [I|I].
    - apply in_map_iff in I. destruct I as (i & <- & I). unfold bigs in I. apply filter_In in I. destruct I as (_ & I). unfold big, Rge_bool in I. destruct (Rle_dec _ _) as [L|]; [exact L|discriminate].
    - destruct (Rle_dec _ _) as [L|]; [destruct I as [<-|[]]|destruct I]. now rewrite small_prb in L. }
  replace (INR n / cutoff) with (/ (cutoff / INR n)) by (field; lra). apply Rinv_le_contravar; [apply Rdiv_lt_0_compat; lra|].
  apply (Rmult_le_reg_l (INR n)); [exact NP|]. replace (INR n * (cutoff / INR n)) with cutoff by (field; lra). exact G.
Qed.
Lemma inverses_ge : left_out omega cell k n cutoff = 0 -> INR (terms omega cell k n cutoff) ^ 2 <= lsumR (term_shares omega cell k n cutoff) Rinv.
Proof.
  intro Q0. rewrite <- (groups_sum Rinv), <- groups_length. pose proof total_share as T. rewrite Q0, Rminus_0_r in T.
  assert (G : forall L, (forall b, In b L -> 0 < prb omega b) -> 2 * INR (length L) * INR (length groups) - INR (length groups) ^ 2 * lsumR L (prb omega) <= lsumR L (fun b => / prb omega b)).
  { induction L as [|b L IH]; intro H; [cbn; lra|]. cbn [length lsumR]. rewrite S_INR. assert (I1 : forall b, In b L -> 0 < prb omega b) by (intros; apply H; now right). specialize (IH I1).
    pose proof (H b (or_introl eq_refl)) as Pb. set (c := INR (length groups)) in *. set (x := prb omega b) in *.
    assert (0 <= (1 - c * x) ^ 2 / x) by (apply Rmult_le_pos; [apply pow2_ge_0|left; now apply Rinv_0_lt_compat]).
    assert (E : (1 - c * x) ^ 2 / x = / x - 2 * c + c ^ 2 * x) by (field; lra). lra. }
  specialize (G groups groups_positive). rewrite T in G. lra.
Qed.
End Law.

(** Over all sequences of n samples, the variance of the statistic (in exact
    arithmetic) about its mean. *)
Theorem C144_variance : forall (B : Type) (omega : list B) (cell : B -> nat) k n cutoff all,
  omega <> [] -> NoDup omega -> (forall o, In o omega -> (cell o < k)%nat) -> (N.of_nat k < 2 ^ 31)%N -> (1 <= n)%nat -> 0 < cutoff ->
  lists_samples omega n all ->
  let mean := average all (chisq_samples omega cell k n cutoff) in
  mean = INR (terms omega cell k n cutoff) - 1 + left_out omega cell k n cutoff /\
  average all (fun l => (chisq_samples omega cell k n cutoff l - mean) ^ 2) = vtest_variance omega cell k n cutoff.
Proof.
  intros B omega cell k n cutoff all NE D C K N1 P A mean. destruct (C124_mean B omega cell k n cutoff all NE D C K N1 P A) as (_ & M). fold mean in M. split; [exact M|]. rewrite M.
  rewrite <- (variance_law omega cell k n cutoff NE D C N1 P all A). apply average_ext. intros l _. unfold chisq_samples, Vtest_samples.
  rewrite Vtest_eval_ok by (unfold vtable; rewrite map_length, seq_length; exact K). reflexivity.
Qed.
(** When nothing is left out it lies between that of chi-square, but for the
    factor 1 - 1/n, and that plus the number of terms divided by the cutoff. *)
Theorem C144_bounds : forall (B : Type) (omega : list B) (cell : B -> nat) k n cutoff all,
  omega <> [] -> NoDup omega -> (forall o, In o omega -> (cell o < k)%nat) -> (N.of_nat k < 2 ^ 31)%N -> (1 <= n)%nat -> 0 < cutoff ->
  lists_samples omega n all -> left_out omega cell k n cutoff = 0 ->
  let m := INR (terms omega cell k n cutoff) in
  2 * (m - 1) * (1 - 1 / INR n) <= average all (fun l => (chisq_samples omega cell k n cutoff l - (m - 1)) ^ 2) <=
  2 * (m - 1) * (1 - 1 / INR n) + (m / cutoff - m ^ 2 / INR n).
Proof.
  intros B omega cell k n cutoff all NE D C K N1 P A Q0 m. destruct (C144_variance B omega cell k n cutoff all NE D C K N1 P A) as (M & V). rewrite M, Q0, Rplus_0_r in V. fold m in V. rewrite V.
  assert (NP : 0 < INR n) by (apply lt_0_INR; lia).
  pose proof (inverses_le omega cell k n cutoff N1 P) as U. pose proof (inverses_ge omega cell k n cutoff NE C N1 P Q0) as L. fold m in U, L.
  unfold vtest_variance. fold m. rewrite Q0. set (T := lsumR _ _) in *. clearbody T.
  replace (2 * (m - 1 + 0 ^ 2) * (1 - 1 / INR n) + (T - m ^ 2 - 4 * 0 * (m - 1 + 0)) / INR n) with (2 * (m - 1) * (1 - 1 / INR n) + (T - m ^ 2) / INR n) by (field; lra).
  assert (0 <= (T - m ^ 2) / INR n) by (apply Rmult_le_pos; [lra|left; now apply Rinv_0_lt_compat]).
  assert ((T - m ^ 2) / INR n <= m / cutoff - m ^ 2 / INR n); [|lra].
  replace (m / cutoff - m ^ 2 / INR n) with ((m * (INR n / cutoff) - m ^ 2) / INR n) by (field; lra). apply Rmult_le_compat_r; [left; now apply Rinv_0_lt_compat|lra].
Qed.
(** With equally likely cells it is that of chi-square, but for that factor. *)
Theorem C144_equal : forall (B : Type) (omega : list B) (cell : B -> nat) k n cutoff all,
  omega <> [] -> NoDup omega -> (forall o, In o omega -> (cell o < k)%nat) -> (N.of_nat k < 2 ^ 31)%N -> (1 <= n)%nat -> 0 < cutoff ->
  lists_samples omega n all -> (forall i, (i < k)%nat -> cell_share omega cell i = 1 / INR k) -> cutoff <= INR n / INR k ->
  average all (fun l => (chisq_samples omega cell k n cutoff l - (INR k - 1)) ^ 2) = 2 * (INR k - 1) * (1 - 1 / INR n).
Proof.
  intros B omega cell k n cutoff all NE D C K N1 P A S G.
  assert (KP : 0 < INR k). { destruct omega as [|o om]; [congruence|]. apply lt_0_INR. specialize (C o (or_introl eq_refl)). lia. }
  assert (NP : 0 < INR n) by (apply lt_0_INR; lia).
  assert (BG : forall i, In i (seq 0 k) -> big omega cell n cutoff i = true).
  { intros i I. apply in_seq in I. unfold big, Rge_bool. rewrite S by lia. destruct (Rle_dec _ _) as [|W]; [reflexivity|]. exfalso. apply W. replace (INR n * (1 / INR k)) with (INR n / INR k) by (unfold Rdiv; ring). exact G. }
  assert (F1 : filter (big omega cell n cutoff) (seq 0 k) = seq 0 k).
  { clear -BG. induction (seq 0 k) as [|a l IH]; [reflexivity|]. cbn [filter]. rewrite BG by now left. f_equal. apply IH. intros; apply BG; now right. }
  assert (F2 : filter (fun i => negb (big omega cell n cutoff i)) (seq 0 k) = []).
  { clear -BG. induction (seq 0 k) as [|a l IH]; [reflexivity|]. cbn [filter]. rewrite BG by now left. cbn [negb]. apply IH. intros; apply BG; now right. }
  assert (SM : small_share omega cell k n cutoff = 0) by (unfold small_share; rewrite F2; reflexivity).
  assert (T : terms omega cell k n cutoff = k).
  { unfold terms. rewrite F1, seq_length. destruct (Rle_dec _ _) as [W|]; [rewrite SM in W; lra|lia]. }
  assert (L : left_out omega cell k n cutoff = 0) by (unfold left_out; destruct (Rle_dec _ _); [reflexivity|exact SM]).
  destruct (C144_variance B omega cell k n cutoff all NE D C K N1 P A) as (M & V). rewrite M, T, L, Rplus_0_r in V. rewrite V. unfold vtest_variance. rewrite T, L. unfold term_shares. rewrite F1.
  destruct (Rle_dec _ _) as [W|W]; [rewrite SM in W; lra|]. rewrite app_nil_r, VtestLaw.lsumR_map. rewrite (lsumR_ext _ _ (fun _ => INR k)).
  - rewrite MissingLaw.lsumR_const, seq_length. field. lra.
  - intros i I. apply in_seq in I. rewrite S by lia. unfold Rdiv. rewrite Rmult_1_l. apply Rinv_inv.
Qed.
(** What is left out matters: three outcomes, the last two in one cell, three
    samples; with cutoff 1 both cells count and the variance is 3/2, with cutoff 2
    one cell counts and, with no degree of freedom, the variance is 1/6. *)
Example C144_ex : let cell o := Nat.min o 1 in let omega := [0; 1; 2]%nat in
  vtest_variance omega cell 2 3 1 = 3 / 2 /\ vtest_variance omega cell 2 3 2 = 1 / 6 /\
  terms omega cell 2 3 1 = 2%nat /\ left_out omega cell 2 3 1 = 0 /\ lists_samples omega 3 (DnaBlock.tuples omega 3).
Proof.
  intros cell omega.
  assert (S0 : cell_share omega cell 0 = 1 / 3) by (unfold cell_share, number_in; cbn; lra).
  assert (S1 : cell_share omega cell 1 = 2 / 3) by (unfold cell_share, number_in; cbn; lra).
  assert (B0 : big omega cell 3 2 0 = false) by (unfold big, Rge_bool; rewrite S0; cbn [INR]; destruct (Rle_dec _ _); [lra|reflexivity]).
  assert (B1 : big omega cell 3 2 1 = true) by (unfold big, Rge_bool; rewrite S1; cbn [INR]; destruct (Rle_dec _ _); [reflexivity|lra]).
  assert (C0 : big omega cell 3 1 0 = true) by (unfold big, Rge_bool; rewrite S0; cbn [INR]; destruct (Rle_dec _ _); [reflexivity|lra]).
  assert (C1 : big omega cell 3 1 1 = true) by (unfold big, Rge_bool; rewrite S1; cbn [INR]; destruct (Rle_dec _ _); [reflexivity|lra]).
  assert (SM : small_share omega cell 2 3 2 = 1 / 3) by (unfold small_share; cbn [seq filter]; rewrite B0, B1; cbn [negb lsumR]; rewrite S0; lra).
  assert (SC : small_share omega cell 2 3 1 = 0) by (unfold small_share; cbn [seq filter]; rewrite C0, C1; reflexivity).
  assert (T1 : terms omega cell 2 3 1 = 2%nat) by (unfold terms; rewrite SC; cbn [seq filter]; rewrite C0, C1; cbn [INR]; destruct (Rle_dec _ _); [lra|reflexivity]).
  assert (L1 : left_out omega cell 2 3 1 = 0) by (unfold left_out; rewrite SC; cbn [INR]; destruct (Rle_dec _ _); reflexivity).
  assert (T2 : terms omega cell 2 3 2 = 1%nat) by (unfold terms; rewrite SM; cbn [seq filter]; rewrite B0, B1; cbn [INR]; destruct (Rle_dec _ _); [lra|reflexivity]).
  assert (L2 : left_out omega cell 2 3 2 = 1 / 3) by (unfold left_out; rewrite SM; cbn [INR]; destruct (Rle_dec _ _); [lra|reflexivity]).
  split; [|split; [|split; [|split]]]; [| |exact T1|exact L1|].
  - unfold vtest_variance. rewrite T1, L1. unfold term_shares. rewrite SC. cbn [seq filter]. rewrite C0, C1. cbn [INR map app]. rewrite S0, S1. destruct (Rle_dec _ _); [lra|]. cbn [lsumR app]. lra.
  - unfold vtest_variance. rewrite T2, L2. unfold term_shares. rewrite SM. cbn [seq filter]. rewrite B0, B1. cbn [INR map app]. rewrite S1. destruct (Rle_dec _ _); [lra|]. cbn [lsumR app]. lra.
  - split; [apply CrapsLaw2.tuples_nodup; repeat constructor; cbn; intuition discriminate|]. intro l. apply CrapsLaw2.in_tuples.
Qed.

Print Assumptions C144_variance.
Print Assumptions C144_bounds.
Print Assumptions C144_equal.
