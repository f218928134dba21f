(** The variance of Vtest's statistic for independent samples. *)
From Coq Require Import Lia Lra Permutation.
From Verif Require MissingLaw.
From Verif Require Import BaseLemmas OpermReal DnaBlock RunsArcs WindowLaw CrapsLaw KsReals.
From Verif Require Export VtestLaw KsSpec.
Open Scope R_scope.

(** ** Sums of a function of one and of a function of two samples *)
Section Pairs.
Context {B : Type}.
Variable omega : list B.
Hypothesis nonempty : omega <> [].
Lemma tuples_ne n : tuples omega n <> [].
Proof.
  intro E. pose proof (size_tuples omega n) as L. rewrite E in L. cbn [length INR] in L. symmetry in L. revert L. apply pow_nonzero. pose proof (size_pos omega nonempty). lra.
Qed.
Lemma average_cons n f : average (tuples omega (S n)) f = average omega (fun o => average (tuples omega n) (fun l => f (o :: l))).
Proof.
  unfold average. rewrite tuples_sum, !size_tuples. cbn [pow]. pose proof (size_pos omega nonempty).
  rewrite (lsumR_ext omega (fun o => lsumR (tuples omega n) (fun l => f (o :: l)) / INR (length omega) ^ n) (fun o => / INR (length omega) ^ n * lsumR (tuples omega n) (fun l => f (o :: l)))) by (intros; unfold Rdiv; ring).
  rewrite lsumR_scale. field. split; [apply pow_nonzero|]; lra.
Qed.
Variable d : B -> R.
Variable h : B -> B -> R.
Hypothesis h1 : forall y, In y omega -> average omega (fun x => h x y) = 0.
Hypothesis h2 : forall x, In x omega -> average omega (fun y => h x y) = 0.
Fixpoint V (l : list B) : R := match l with [] => 0 | o :: l => d o + 2 * lsumR l (h o) + V l end.
Definition D : R := average omega d.
Lemma row_mean n x : In x omega -> average (tuples omega n) (fun l => lsumR l (h x)) = 0.
Proof.
  intro X. induction n as [|n IH]; [unfold average; cbn; field|]. rewrite average_cons. cbn [lsumR].
  rewrite (average_ext omega _ (fun o => h x o + 0)).
  - rewrite average_plus, h2, average_zero by exact X. ring.
  - intros o _. rewrite average_plus, IH, average_const by apply tuples_ne. reflexivity.
Qed.
Lemma row_square n x : In x omega -> average (tuples omega n) (fun l => lsumR l (h x) ^ 2) = INR n * average omega (fun y => h x y ^ 2).
Proof.
  intro X. induction n as [|n IH]; [cbn [INR]; rewrite Rmult_0_l; unfold average; cbn; field|]. rewrite average_cons. cbn [lsumR].
  rewrite (average_ext omega _ (fun o => h x o ^ 2 + INR n * average omega (fun y => h x y ^ 2))).
  - rewrite average_plus, average_const by exact nonempty. rewrite S_INR. ring.
  - intros o _. rewrite (average_ext _ _ (fun l => h x o ^ 2 + (2 * h x o * lsumR l (h x) + lsumR l (h x) ^ 2))) by (intros; ring).
    rewrite !average_plus, average_scale, IH, row_mean, average_const by (exact X || apply tuples_ne). ring.
Qed.
Lemma V_mean n : average (tuples omega n) V = INR n * D.
Proof.
  induction n as [|n IH]; [cbn [INR]; rewrite ?Rmult_0_r, ?Rmult_0_l, ?Rplus_0_l; unfold average at 1; cbn; field|]. rewrite average_cons. cbn [V].
  rewrite (average_ext omega _ (fun o => d o + INR n * D)).
  - rewrite average_plus, average_const by exact nonempty. fold D. rewrite S_INR. ring.
  - intros o O. rewrite !average_plus, average_scale, IH, row_mean, average_const by (exact O || apply tuples_ne). ring.
Qed.
Lemma V_variance n : average (tuples omega n) (fun l => (V l - INR n * D) ^ 2) =
  INR n * average omega (fun x => (d x - D) ^ 2) + 2 * INR n * (INR n - 1) * average omega (fun x => average omega (fun y => h x y ^ 2)).
Proof.
  set (E2 := average omega (fun x => average omega (fun y => h x y ^ 2))).
  induction n as [|n IH]; [cbn [INR]; rewrite ?Rmult_0_r, ?Rmult_0_l, ?Rplus_0_l; unfold average at 1; cbn; field|]. rewrite average_cons. cbn [V].
  set (W := average (tuples omega n) (fun l => (V l - INR n * D) ^ 2)) in *.
  assert (WZ : average (tuples omega n) (fun l => V l - INR n * D) = 0).
  { rewrite average_minus, V_mean, average_const by apply tuples_ne. ring. }
  rewrite (average_ext omega _ (fun o => ((d o - D) ^ 2 + 4 * INR n * average omega (fun y => h o y ^ 2)) + (W + 4 * average (tuples omega n) (fun l => (V l - INR n * D) * lsumR l (h o))))).
  - rewrite !average_plus, (average_scale omega (4 * INR n)), (average_scale omega 4), average_const by exact nonempty. fold E2. rewrite IH.
    rewrite (average_swap omega (tuples omega n)). rewrite (average_ext (tuples omega n) _ (fun _ => 0)).
    + rewrite average_zero, S_INR. ring.
    + intros l L. apply CrapsLaw2.in_tuples in L. rewrite average_scale. rewrite average_lsumR. rewrite (lsumR_ext l _ (fun _ => 0)) by (intros y Y; apply h1; now apply L). rewrite MissingLaw.lsumR_const. ring.
  - intros o O. rewrite (average_ext (tuples omega n) _ (fun l => (d o - D) ^ 2 + (4 * lsumR l (h o) ^ 2 + ((V l - INR n * D) ^ 2 + (4 * (d o - D) * lsumR l (h o) + (2 * (d o - D) * (V l - INR n * D) + 4 * ((V l - INR n * D) * lsumR l (h o))))))))
      by (intros; rewrite S_INR; ring).
    rewrite !average_plus. rewrite (average_scale _ 4 (fun l => lsumR l (h o) ^ 2)), (average_scale _ (4 * (d o - D))), (average_scale _ (2 * (d o - D))), (average_scale _ 4 (fun l => (V l - INR n * D) * lsumR l (h o))).
    rewrite WZ, row_mean, row_square, average_const by (exact O || apply tuples_ne). fold W. ring.
Qed.
End Pairs.

(** ** Pearson's statistic of disjoint groups *)
Section Groups.
Context {B : Type}.
Variable omega : list B.
Hypothesis nonempty : omega <> [].
Variable g : nat -> B -> bool.
Variable k : nat.
Hypothesis disjoint : forall i j o, In o omega -> (i < k)%nat -> (j < k)%nat -> g i o = true -> g j o = true -> i = j.
Hypothesis positive : forall i, (i < k)%nat -> 0 < prb omega (g i).
Definition p (i : nat) : R := prb omega (g i).
Definition I (i : nat) (o : B) : R := CrapsLaw.ind (g i o).
Definition P : R := rsum k p.
Definition h (x y : B) : R := rsum k (fun i => (I i x - p i) * (I i y - p i) / p i).
Definition Q (n : nat) (l : list B) : R := rsum k (fun i => (cnt (g i) l - INR n * p i) ^ 2 / p i).
Lemma I_mean i : average omega (I i) = p i.
Proof. unfold average, p, prb, I, cnt. rewrite <- CrapsLaw2.filter_count. reflexivity. Qed.
Lemma I_zero i : average omega (fun o => I i o - p i) = 0.
Proof. rewrite average_minus, I_mean, average_const by exact nonempty. ring. Qed.
Lemma I_product i j o : In o omega -> (i < k)%nat -> (j < k)%nat -> I i o * I j o = if (i =? j)%nat then I i o else 0.
Proof.
  intros O Hi Hj. unfold I, CrapsLaw.ind. destruct (Nat.eqb_spec i j) as [->|NE]; [destruct (g j o); ring|].
  destruct (g i o) eqn:E1; [|ring]. destruct (g j o) eqn:E2; [|ring]. exfalso. apply NE. now apply (disjoint i j o).
Qed.
Lemma cov i j : (i < k)%nat -> (j < k)%nat -> average omega (fun o => (I i o - p i) * (I j o - p j)) = (if (i =? j)%nat then p i else 0) - p i * p j.
Proof.
  intros Hi Hj. rewrite (average_ext omega _ (fun o => (if (i =? j)%nat then I i o else 0) + ((- p j) * I i o + (- p i * I j o + p i * p j)))) by (intros o O; rewrite <- (I_product i j o O Hi Hj); ring).
  rewrite !average_plus, !average_scale, !I_mean, average_const by exact nonempty. destruct (i =? j)%nat; [rewrite I_mean|rewrite average_zero]; ring.
Qed.
Lemma h_sym x y : h x y = h y x.
Proof. unfold h. apply rsum_ext. intros; unfold Rdiv; ring. Qed.
Lemma h_zero y : average omega (fun x => h x y) = 0.
Proof.
  unfold h. rewrite average_rsum. rewrite (rsum_ext k _ (fun _ => 0)); [apply rsum_zero|]. intros i _.
  rewrite (average_ext omega _ (fun o => (I i y - p i) / p i * (I i o - p i))) by (intros; unfold Rdiv; ring). rewrite average_scale, I_zero. ring.
Qed.
Lemma h_zero2 x : average omega (fun y => h x y) = 0.
Proof. rewrite (average_ext omega _ (fun y => h y x)) by (intros; apply h_sym). apply h_zero. Qed.
Lemma rsum_square (f : nat -> R) m : rsum m f ^ 2 = rsum m (fun i => rsum m (fun j => f i * f j)).
Proof. rewrite (rsum_ext m (fun i => rsum m (fun j => f i * f j)) (fun i => rsum m f * f i)) by (intros; rewrite <- rsum_scale; ring). rewrite <- rsum_scale. ring. Qed.
Lemma rsum_delta m (f : nat -> R) i : (i < m)%nat -> rsum m (fun j => if (i =? j)%nat then f j else 0) = f i.
Proof. intro Hi. rewrite (rsum_single m _ i Hi); [now rewrite Nat.eqb_refl|]. intros j _ NE. destruct (Nat.eqb_spec i j); [congruence|reflexivity]. Qed.
Lemma h_square : average omega (fun x => average omega (fun y => h x y ^ 2)) = INR k - 2 * P + P ^ 2.
Proof.
  rewrite (average_ext omega _ (fun x => rsum k (fun i => rsum k (fun j => (I i x - p i) * (I j x - p j) / (p i * p j) * ((if (i =? j)%nat then p i else 0) - p i * p j))))).
  - rewrite average_rsum. rewrite (rsum_ext k _ (fun i => (1 - 2 * p i) + rsum k (fun j => p i * p j))).
    + rewrite <- rsum_plus, OpermReal.rsum_minus, rsum_const, <- rsum_scale. unfold P at 2. rewrite rsum_square. fold P. ring.
    + intros i Hi. rewrite average_rsum. rewrite (rsum_ext k _ (fun j => (if (i =? j)%nat then 1 - 2 * p j else 0) + p i * p j)).
      * rewrite <- rsum_plus. rewrite (rsum_delta k (fun j => 1 - 2 * p j) i Hi). reflexivity.
      * intros j Hj. set (c := ((if (i =? j)%nat then p i else 0) - p i * p j)).
        rewrite (average_ext omega _ (fun x => c / (p i * p j) * ((I i x - p i) * (I j x - p j)))) by (intros; unfold Rdiv; ring).
        rewrite average_scale, cov by assumption. unfold c. pose proof (positive i Hi). pose proof (positive j Hj). fold (p i) in *. fold (p j) in *.
        destruct (Nat.eqb_spec i j) as [->|NE]; field; lra.
  - intros x _. rewrite (average_ext omega _ (fun y => rsum k (fun i => rsum k (fun j => (I i x - p i) * (I j x - p j) / (p i * p j) * ((I i y - p i) * (I j y - p j)))))).
    + rewrite average_rsum. apply rsum_ext. intros i Hi. rewrite average_rsum. apply rsum_ext. intros j Hj. rewrite average_scale, cov by assumption. reflexivity.
    + intros y _. unfold h. rewrite rsum_square. apply rsum_ext. intros i Hi. apply rsum_ext. intros j Hj.
      pose proof (positive i Hi). pose proof (positive j Hj). fold (p i) in *. fold (p j) in *. field. lra.
Qed.
Lemma diag_value x : In x omega -> h x x = rsum k (fun i => I i x * (/ p i - 2)) + P.
Proof.
  intro X. unfold h, P. rewrite rsum_plus. apply rsum_ext. intros i Hi. pose proof (positive i Hi). fold (p i) in *.
  assert (E : I i x * I i x = I i x) by (rewrite I_product, Nat.eqb_refl by assumption; reflexivity).
  transitivity ((I i x * I i x - 2 * p i * I i x + p i * p i) / p i); [unfold Rdiv; ring|]. rewrite E. field. lra.
Qed.
Lemma diag_mean : average omega (fun x => h x x) = INR k - P.
Proof.
  rewrite (average_ext omega _ _ diag_value). rewrite average_plus, average_const, average_rsum by exact nonempty.
  rewrite (rsum_ext k _ (fun i => 1 - 2 * p i)).
  - rewrite OpermReal.rsum_minus, rsum_const, <- rsum_scale. fold P. ring.
  - intros i Hi. rewrite (average_ext omega _ (fun x => (/ p i - 2) * I i x)) by (intros; ring). rewrite average_scale, I_mean. pose proof (positive i Hi). fold (p i) in *. field. lra.
Qed.
Lemma diag_variance : average omega (fun x => (h x x - (INR k - P)) ^ 2) = rsum k (fun i => / p i) - 4 * INR k + 4 * P - (INR k - 2 * P) ^ 2.
Proof.
  set (c := INR k - 2 * P).
  rewrite (average_ext omega _ (fun x => rsum k (fun i => I i x * ((/ p i - 2) ^ 2 - 2 * c * (/ p i - 2))) + c ^ 2)).
  - rewrite average_plus, average_const, average_rsum by exact nonempty.
    rewrite (rsum_ext k _ (fun i => / p i + ((- 4 - 2 * c) + (4 + 4 * c) * p i))).
    + rewrite <- !rsum_plus, rsum_const, <- rsum_scale. fold P. unfold c. ring.
    + intros i Hi. rewrite (average_ext omega _ (fun x => ((/ p i - 2) ^ 2 - 2 * c * (/ p i - 2)) * I i x)) by (intros; ring). rewrite average_scale, I_mean. pose proof (positive i Hi). fold (p i) in *. field. lra.
  - intros x X. rewrite (diag_value x X). set (S := rsum k (fun i => I i x * (/ p i - 2))).
    assert (E : S ^ 2 = rsum k (fun i => I i x * (/ p i - 2) ^ 2)).
    { unfold S. rewrite rsum_square. apply rsum_ext. intros i Hi. rewrite (rsum_ext k _ (fun j => if (i =? j)%nat then I j x * (/ p j - 2) ^ 2 else 0)).
      - exact (rsum_delta k (fun j => I j x * (/ p j - 2) ^ 2) i Hi).
      - intros j Hj. transitivity (I i x * I j x * ((/ p i - 2) * (/ p j - 2))); [ring|]. rewrite (I_product i j x X Hi Hj). destruct (Nat.eqb_spec i j) as [->|]; ring. }
    transitivity (S ^ 2 - 2 * c * S + c ^ 2); [unfold c; ring|]. rewrite E.
    rewrite (rsum_ext k (fun i => I i x * ((/ p i - 2) ^ 2 - 2 * c * (/ p i - 2))) (fun i => I i x * (/ p i - 2) ^ 2 + - (2 * c) * (I i x * (/ p i - 2)))) by (intros; ring).
    rewrite <- rsum_plus, <- rsum_scale. fold S. ring.
Qed.
Lemma Q_pairs l : Q (length l) l = V (fun x => h x x) h l.
Proof.
  assert (G : forall i l, cnt (g i) l - INR (length l) * p i = lsumR l (fun o => I i o - p i)).
  { intros i m. induction m as [|o m IH]; [cbn; ring|]. cbn [lsumR length]. rewrite <- IH, cnt_cons, S_INR. unfold I. ring. }
  unfold Q. rewrite (rsum_ext k _ (fun i => lsumR l (fun o => I i o - p i) ^ 2 / p i)) by (intros; rewrite G; reflexivity).
  induction l as [|o l IH].
  - cbn [V lsumR]. rewrite (rsum_ext k _ (fun _ => 0)) by (intros; unfold Rdiv; ring). apply rsum_zero.
  - cbn [V]. rewrite <- IH. cbn [lsumR].
    rewrite (rsum_ext k _ (fun i => ((I i o - p i) * (I i o - p i) / p i + 2 * ((I i o - p i) / p i * lsumR l (fun y => I i y - p i))) + lsumR l (fun y => I i y - p i) ^ 2 / p i)) by (intros; unfold Rdiv; ring).
    rewrite <- !rsum_plus, <- rsum_scale. fold (h o o). f_equal. f_equal. f_equal. unfold h. clear. induction l as [|y l IH]; cbn [lsumR].
    + rewrite (rsum_ext k _ (fun _ => 0)) by (intros; ring). apply rsum_zero.
    + rewrite <- IH, rsum_plus. apply rsum_ext. intros; unfold Rdiv; ring.
Qed.
Theorem Q_moments n : average (tuples omega n) (Q n) = INR n * (INR k - P) /\
  average (tuples omega n) (fun l => (Q n l - INR n * (INR k - P)) ^ 2) =
  INR n * (rsum k (fun i => / p i) - 4 * INR k + 4 * P - (INR k - 2 * P) ^ 2) + 2 * INR n * (INR n - 1) * (INR k - 2 * P + P ^ 2).
Proof.
  assert (E : forall l, In l (tuples omega n) -> Q n l = V (fun x => h x x) h l) by (intros l L; apply CrapsLaw2.in_tuples in L; destruct L as (<- & _); apply Q_pairs).
  assert (Dd : D omega (fun x => h x x) = INR k - P) by apply diag_mean.
  split.
  - rewrite (average_ext _ _ _ E). rewrite (V_mean omega nonempty (fun x => h x x) h (fun x _ => h_zero2 x)), Dd. reflexivity.
  - rewrite (average_ext _ _ (fun l => (V (fun x => h x x) h l - INR n * D omega (fun x => h x x)) ^ 2)) by (intros; rewrite E, Dd by assumption; reflexivity).
    rewrite (V_variance omega nonempty (fun x => h x x) h (fun y _ => h_zero y) (fun x _ => h_zero2 x)), Dd, diag_variance, h_square. reflexivity.
Qed.
End Groups.
