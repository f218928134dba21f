(** The mean of Vtest's statistic for independent samples. *)
From Coq Require Import Lia Lra Permutation.
From Verif Require Export VtestLawSpec.
From Verif Require Import BaseLemmas OpermReal DnaBlock RunsArcs RunsLaw VtestArithLemmas CrapsLaw CrapsLaw2.
Open Scope R_scope.

Section Counts.
Context {B : Type}.
Variable omega : list B.
Hypothesis nonempty : omega <> [].
Definition cnt (b : B -> bool) (l : list B) : R := INR (length (filter b l)).
Definition prb (b : B -> bool) : R := cnt b omega / INR (length omega).
Lemma size_pos : 0 < INR (length omega).
Proof. destruct omega; [congruence|]. cbn [length]. apply lt_0_INR. lia. Qed.
Lemma size_tuples n : INR (length (tuples omega n)) = INR (length omega) ^ n.
Proof.
  induction n as [|n IH]; [cbn; lra|]. transitivity (lsumR (tuples omega (S n)) (fun _ => 1)); [rewrite lsumR_const; ring|].
  rewrite tuples_sum. rewrite (lsumR_ext _ _ (fun _ => INR (length (tuples omega n)) )) by (intros; rewrite lsumR_const; ring).
  rewrite lsumR_const, IH. cbn [pow]. ring.
Qed.
Lemma cnt_cons b o l : cnt b (o :: l) = ind (b o) + cnt b l.
Proof. unfold cnt, ind. cbn [filter]. destruct (b o); cbn [length]; [rewrite S_INR; ring|ring]. Qed.
Lemma square_mean b n : forall c, lsumR (tuples omega n) (fun l => (c - cnt b l) * (c - cnt b l)) / INR (length omega) ^ n =
  INR n * prb b * (1 - prb b) + (c - INR n * prb b) * (c - INR n * prb b).
Proof.
  pose proof size_pos as P. induction n as [|n IH]; intro c.
  - cbn. unfold cnt. cbn. field.
  - rewrite tuples_sum.
    rewrite (lsumR_ext omega _ (fun o => INR (length omega) ^ n * (INR n * prb b * (1 - prb b) + (c - INR n * prb b) * (c - INR n * prb b)) + INR (length omega) ^ n * (1 - 2 * (c - INR n * prb b)) * ind (b o))).
    + rewrite lsumR_plus, lsumR_const, lsumR_scale, <- filter_count. fold (cnt b omega). rewrite S_INR.
      replace (cnt b omega) with (prb b * INR (length omega)) by (unfold prb; field; lra). cbn [pow]. field. split; [apply pow_nonzero|]; lra.
    + intros o _. rewrite (lsumR_ext _ _ (fun l => (c - ind (b o) - cnt b l) * (c - ind (b o) - cnt b l))) by (intros; rewrite cnt_cons; ring).
      specialize (IH (c - ind (b o))). apply (f_equal (fun x => x * INR (length omega) ^ n)) in IH. unfold Rdiv in IH at 1.
      rewrite Rmult_assoc, Rinv_l, Rmult_1_r in IH by (apply pow_nonzero; lra). rewrite IH. unfold ind. destruct (b o); ring.
Qed.
Lemma average_samples n all f : lists_samples omega n all -> NoDup omega -> average all f = lsumR (tuples omega n) f / INR (length omega) ^ n.
Proof.
  intros (N & I) D. assert (E : Permutation all (tuples omega n)).
  { apply NoDup_Permutation; [exact N|now apply tuples_nodup|]. intro l. rewrite I, in_tuples. reflexivity. }
  unfold average. rewrite (lsumR_perm _ _ f E), (Permutation_length E), size_tuples. reflexivity.
Qed.
End Counts.

(** ** The statistic as a sum *)
Ltac as_reals := match goal with |- @eq _ ?a ?b => change (@eq R a b) end.
Definition pearson (c : R * R) : R := (fst c - snd c) * (fst c - snd c) / snd c.
Lemma chisq_sum l : forall a, fold_left (fun s c => nadd reals s (delchisqA reals (fst c) (snd c))) l a = a + lsumR l pearson.
Proof. induction l as [|c l IH]; intro a; cbn [fold_left lsumR]; [symmetry; apply Rplus_0_r|]. rewrite IH. unfold delchisqA, pearson. cbn [nadd nsub nmul ndiv reals]. change (num reals) with R. ring. Qed.
Lemma dsum_sum l : dsumA reals l = lsumR l (fun x => x).
Proof.
  destruct l as [|a l]; [reflexivity|]. cbn [dsumA lsumR]. revert a. induction l as [|b l IH]; intro a; cbn [fold_left lsumR]; [symmetry; apply Rplus_0_r|].
  rewrite IH. cbn [nadd reals]. as_reals. ring.
Qed.
Lemma lsumR_map {X Y} (f : X -> Y) g l : lsumR (map f l) g = lsumR l (fun x => g (f x)).
Proof. induction l as [|x l IH]; [reflexivity|]. cbn [map lsumR]. now rewrite IH. Qed.
Lemma lsumR_app {X} (l m : list X) g : lsumR (l ++ m) g = lsumR l g + lsumR m g.
Proof. induction l as [|x l IH]; cbn [app lsumR]; [ring|]. rewrite IH. ring. Qed.
Lemma lsumR_filter {X} (b : X -> bool) l g : lsumR l g = lsumR (filter b l) g + lsumR (filter (fun x => negb (b x)) l) g.
Proof. induction l as [|x l IH]; cbn [filter lsumR]; [ring|]. rewrite IH. destruct (b x); cbn [negb lsumR]; ring. Qed.
Lemma filter_map {X Y} (f : X -> Y) b l : filter b (map f l) = map f (filter (fun x => b (f x)) l).
Proof. induction l as [|x l IH]; [reflexivity|]. cbn [map filter]. rewrite IH. destruct (b (f x)); reflexivity. Qed.

Section Law.
Context {B : Type}.
Variable omega : list B.
Variable cell : B -> nat.
Variable k n : nat.
Variable cutoff : R.
Hypothesis nonempty : omega <> [].
Hypothesis distinct : NoDup omega.
Hypothesis cells : forall o, In o omega -> (cell o < k)%nat.
Hypothesis samples : (1 <= n)%nat.
Hypothesis positive : 0 < cutoff.

Definition inside (T : list nat) (o : B) : bool := existsb (Nat.eqb (cell o)) T.
Lemma group T l : NoDup T -> lsumR T (fun i => number_in cell i l) = cnt (inside T) l.
Proof.
  intro D. induction l as [|o l IH].
  - unfold number_in. cbn [filter length]. rewrite lsumR_const. unfold cnt. cbn. ring.
  - rewrite cnt_cons, <- IH. rewrite (lsumR_ext T _ (fun i => ind (Nat.eqb (cell o) i) + number_in cell i l)) by (intros; apply (cnt_cons (fun o => Nat.eqb (cell o) x))).
    rewrite lsumR_plus. f_equal. unfold inside. clear IH. induction D as [|i T N D IH]; [reflexivity|]. cbn [lsumR existsb]. rewrite IH.
    destruct (Nat.eqb_spec (cell o) i) as [<-|]; cbn [orb ind]; [|unfold ind; ring].
    replace (existsb (Nat.eqb (cell o)) T) with false; [unfold ind; ring|]. symmetry. apply not_true_iff_false. intro E. apply existsb_exists in E. destruct E as (x & X & E).
    apply Nat.eqb_eq in E. subst x. contradiction.
Qed.
Definition bigs : list nat := filter (big omega cell n cutoff) (seq 0 k).
Definition smals : list nat := filter (fun i => negb (big omega cell n cutoff i)) (seq 0 k).
Lemma number_cnt i l : number_in cell i l = cnt (fun o => Nat.eqb (cell o) i) l. Proof. reflexivity. Qed.
Lemma share_group T : NoDup T -> lsumR T (cell_share omega cell) = prb omega (inside T).
Proof.
  intro D. unfold cell_share, prb. rewrite <- (group T omega D). rewrite (lsumR_ext T _ (fun i => / INR (length omega) * number_in cell i omega)) by (intros; unfold Rdiv; ring).
  rewrite lsumR_scale. unfold Rdiv. ring.
Qed.
Lemma all_shares : lsumR (seq 0 k) (cell_share omega cell) = 1.
Proof.
  rewrite share_group by apply seq_NoDup. unfold prb, cnt. assert (E : forall l, (forall o, In o l -> (cell o < k)%nat) -> filter (inside (seq 0 k)) l = l).
  { clear. induction l as [|o l IH]; intro H; [reflexivity|]. cbn [filter]. rewrite IH by (intros; apply H; now right).
    replace (inside (seq 0 k) o) with true; [reflexivity|]. symmetry. unfold inside. apply existsb_exists. exists (cell o). rewrite in_seq, Nat.eqb_refl.
    pose proof (H o (or_introl eq_refl)). split; [lia|reflexivity]. }
  rewrite E by exact cells. field. pose proof (size_pos omega nonempty). lra.
Qed.

Lemma used_cells l : usedA reals Rge_bool cutoff (vtable omega cell k n l) =
  map (fun i => (number_in cell i l, INR n * cell_share omega cell i)) bigs ++
  (if Rle_dec cutoff (INR n * small_share omega cell k n cutoff) then [(cnt (inside smals) l, INR n * prb omega (inside smals))] else []).
Proof.
  unfold usedA, vtable. rewrite !filter_map. f_equal.
  change (filter (fun x => negb (largeA reals Rge_bool cutoff (number_in cell x l, INR n * cell_share omega cell x))) (seq 0 k)) with smals.
  assert (N : NoDup smals) by apply NoDup_filter, seq_NoDup.
  match goal with |- context [bundleA reals ?m] => assert (EB : bundleA reals m = (cnt (inside smals) l, INR n * prb omega (inside smals))) end.
  { unfold bundleA. rewrite !dsum_sum, !lsumR_map. cbn [fst snd]. rewrite group, lsumR_scale, share_group by exact N. reflexivity. }
  rewrite EB. clear EB.
  unfold largeA. cbn [snd]. change (small_share omega cell k n cutoff) with (lsumR smals (cell_share omega cell)). rewrite share_group by exact N. unfold Rge_bool.
  destruct (Rle_dec cutoff (INR n * prb omega (inside smals))) as [L|L]; [|destruct (negb _); reflexivity].
  rewrite map_length. destruct smals eqn:E; [|reflexivity].
  exfalso. unfold prb, cnt, inside in L. cbn [existsb] in L. assert (F : forall l : list B, filter (fun _ => false) l = []) by (induction l0; auto). rewrite F in L. cbn in L. lra.
Qed.
Lemma chisq_used l : chisq_ofA reals (usedA reals Rge_bool cutoff (vtable omega cell k n l)) =
  lsumR bigs (fun i => pearson (number_in cell i l, INR n * cell_share omega cell i)) +
  (if Rle_dec cutoff (INR n * small_share omega cell k n cutoff) then pearson (cnt (inside smals) l, INR n * prb omega (inside smals)) else 0).
Proof.
  rewrite used_cells. unfold chisq_ofA. rewrite chisq_sum, lsumR_app, lsumR_map. cbn [nint reals]. as_reals. destruct (Rle_dec _ _); cbn [lsumR]; ring.
Qed.
Lemma used_length l : length (usedA reals Rge_bool cutoff (vtable omega cell k n l)) = terms omega cell k n cutoff.
Proof. rewrite used_cells, app_length, map_length. unfold terms. fold bigs. destruct (Rle_dec _ _); reflexivity. Qed.
Lemma pearson_mean all b : lists_samples omega n all -> 0 < prb omega b -> average all (fun l => pearson (cnt b l, INR n * prb omega b)) = 1 - prb omega b.
Proof.
  intros A P. unfold pearson. cbn [fst snd]. rewrite (average_samples omega n all _ A distinct).
  assert (Q : 0 < INR n) by (apply lt_0_INR; lia). pose proof (square_mean omega nonempty b n (INR n * prb omega b)) as E.
  rewrite (lsumR_ext _ _ (fun l => / (INR n * prb omega b) * ((INR n * prb omega b - cnt b l) * (INR n * prb omega b - cnt b l)))) by (intros; unfold Rdiv; ring).
  rewrite lsumR_scale. unfold Rdiv in *. rewrite Rmult_assoc, E. field. lra.
Qed.
Lemma ge_pos x : cutoff <= INR n * x -> 0 < x.
Proof. intro H. assert (Q : 0 < INR n) by (apply lt_0_INR; lia). apply (Rmult_lt_reg_l (INR n)); lra. Qed.
Lemma average_lsumR {X Y} (all : list X) (l : list Y) f : average all (fun x => lsumR l (f x)) = lsumR l (fun y => average all (fun x => f x y)).
Proof. induction l as [|y l IH]; cbn [lsumR]; [apply average_zero|]. rewrite average_plus, IH. reflexivity. Qed.
Theorem mean_law all : lists_samples omega n all ->
  average all (fun l => chisq_ofA reals (usedA reals Rge_bool cutoff (vtable omega cell k n l))) = INR (terms omega cell k n cutoff) - (1 - left_out omega cell k n cutoff).
Proof.
  intro A. rewrite (average_ext all _ _ (fun l _ => chisq_used l)). rewrite average_plus, average_lsumR.
  rewrite (lsumR_ext bigs _ (fun i => 1 + - 1 * cell_share omega cell i)).
  2:{ intros i I. change (cell_share omega cell i) with (prb omega (fun o => Nat.eqb (cell o) i)). transitivity (1 - prb omega (fun o => Nat.eqb (cell o) i)); [|ring]. apply (pearson_mean all (fun o => Nat.eqb (cell o) i) A).
    apply ge_pos. unfold bigs in I. apply filter_In in I. destruct I as (_ & I). unfold big, Rge_bool in I. destruct (Rle_dec _ _) as [L|]; [exact L|discriminate]. }
  rewrite lsumR_plus, lsumR_const, lsumR_scale. pose proof all_shares as T. rewrite (lsumR_filter (big omega cell n cutoff)) in T. fold bigs in T.
  change (lsumR (filter (fun x => negb (big omega cell n cutoff x)) (seq 0 k)) (cell_share omega cell)) with (small_share omega cell k n cutoff) in T.
  unfold terms, left_out. fold bigs. destruct (Rle_dec _ _) as [L|L].
  - change (small_share omega cell k n cutoff) with (lsumR smals (cell_share omega cell)) in *. rewrite (share_group smals) in * by apply NoDup_filter, seq_NoDup.
    rewrite (pearson_mean all (inside smals) A) by (now apply ge_pos). rewrite plus_INR. cbn [INR]. lra.
  - rewrite average_zero, plus_INR. cbn [INR]. lra.
Qed.
End Law.
