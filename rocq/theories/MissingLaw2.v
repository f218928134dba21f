(** Mean and variance of the number of missing words. *)
From Coq Require Import Lia Lra Bool.
From Verif Require Import BaseLemmas TallyLemmas PropMissing.
From Verif Require Export MissingLaw.
Open Scope R_scope.

Definition other (x v : N) : R := if (v =? x)%N then 0 else 1.
Definition absent (n : nat) (word : nat -> N) (x : N) : R := rprod n (fun t => other x (word t)).

(** ** sums over the words *)
Lemma words_one D x : (x < 2 ^ D)%N -> forall c f, lsumR (words D) (fun v => if (v =? x)%N then c else f v) = c - f x + lsumR (words D) f.
Proof.
  intros X c f. apply in_words in X. pose proof (words_nodup D) as N. induction (words D) as [|a l IH]; [destruct X|]. inversion N as [|? ? Na Nl]; subst. cbn [lsumR].
  destruct X as [->|X].
  - rewrite N.eqb_refl. rewrite (lsumR_ext l _ f); [ring|]. intros v V. replace (v =? x)%N with false by (symmetry; apply N.eqb_neq; congruence). reflexivity.
  - replace (a =? x)%N with false by (symmetry; apply N.eqb_neq; congruence). rewrite IH by assumption. ring.
Qed.
Lemma other_sum D x : (x < 2 ^ D)%N -> lsumR (words D) (other x) = IZR (2 ^ Z.of_N D) - 1.
Proof. intro X. unfold other. rewrite (words_one D x X 0 (fun _ => 1)), lsumR_const, words_len. ring. Qed.
Lemma other_sum2 D x y : (x < 2 ^ D)%N -> (y < 2 ^ D)%N -> x <> y -> lsumR (words D) (fun v => other x v * other y v) = IZR (2 ^ Z.of_N D) - 2.
Proof.
  intros X Y H. rewrite (lsumR_ext _ _ (fun v => if (v =? x)%N then 0 else other y v)).
  - rewrite (words_one D x X 0 (other y)), other_sum by exact Y. unfold other. replace (x =? y)%N with false by (symmetry; now apply N.eqb_neq). ring.
  - intros v _. unfold other. destruct (v =? x)%N; ring.
Qed.
Lemma other_idem x v : other x v * other x v = other x v.
Proof. unfold other. destruct (v =? x)%N; ring. Qed.

(** ** absent words and the count *)
Lemma absent_in n : forall word x, absent n word x = if in_dec N.eq_dec x (map word (seq 0 n)) then 0 else 1.
Proof.
  unfold absent. induction n as [|n IH]; intros word x; [reflexivity|]. cbn [rprod seq map]. rewrite (IH (fun s => word (S s)) x). rewrite <- seq_shift, map_map.
  destruct (in_dec N.eq_dec x (map (fun s => word (S s)) (seq 0 n))) as [I|I], (in_dec N.eq_dec x (word 0%nat :: map (fun s => word (S s)) (seq 0 n))) as [J|J]; try ring.
  - exfalso. apply J. now right.
  - destruct J as [<-|J]; [|contradiction]. unfold other. rewrite N.eqb_refl. ring.
  - unfold other. replace (word 0%nat =? x)%N with false; [ring|]. symmetry. apply N.eqb_neq. intro E. apply J. now left.
Qed.
Lemma countp_R {A} (p : A -> bool) l : lsumR l (fun x => if p x then 1 else 0) = IZR (Z.of_N (countp p l)).
Proof. induction l as [|x l IH]; [reflexivity|]. cbn [lsumR countp]. rewrite IH, N2Z.inj_add, plus_IZR. destruct (p x); reflexivity. Qed.
Lemma absent_sum D n word : (forall t, (t < n)%nat -> (word t < 2 ^ D)%N) ->
  lsumR (words D) (absent n word) + IZR (Z.of_N (distinct (map word (seq 0 n)))) = IZR (2 ^ Z.of_N D).
Proof.
  intro B. set (l := map word (seq 0 n)). unfold distinct.
  assert (E : Z.of_N (N.of_nat (length (nodup N.eq_dec l))) = Z.of_N (countp (mem (nodup N.eq_dec l)) (words D))).
  { f_equal. pose proof (words_mem D 0 (nodup N.eq_dec l) (NoDup_nodup _ _)) as W. rewrite N.add_0_r in W. change (2 ^ N.of_nat 0)%N with 1%N in W. rewrite N.mul_1_r in W.
    rewrite <- W.
    - apply countp_ext. intros x X. apply in_words in X. now rewrite N.mod_small.
    - intros s S. apply nodup_In in S. unfold l in S. apply in_map_iff in S. destruct S as (t & <- & T). apply in_seq in T. apply B. lia. }
  rewrite E, <- countp_R, <- lsumR_plus. rewrite (lsumR_ext _ _ (fun _ => 1)).
  - rewrite lsumR_const, words_len. ring.
  - intros x _. rewrite absent_in. fold l. unfold mem. destruct (in_dec N.eq_dec x l) as [I|I], (in_dec N.eq_dec x (nodup N.eq_dec l)) as [J|J]; try ring; exfalso;
      rewrite nodup_In in J; contradiction.
Qed.

(** ** moments *)
Section Moments.
Variables (w d : N) (m q B n : nat) (H : list N -> R).
Hypothesis (Q : (0 < q)%nat) (W : (d * N.of_nat q <= w)%N) (LB : (n <= q * B)%nat).
Let D := (d * N.of_nat m)%N.
Let M := IZR (2 ^ Z.of_N D).
Hypothesis count : forall l, In l (matrices w (m * B)) -> H l = lsumR (words D) (absent n (gword d m q l)).
Let all := matrices w (m * B).
Let K := INR (length all).
Lemma K_ne : K <> 0.
Proof. unfold K, all. rewrite matrices_len. apply pow_ne, two_ne. lia. Qed.
Lemma M_ne : M <> 0.
Proof. apply two_ne. lia. Qed.
Lemma M_eq : IZR (2 ^ (Z.of_N d * Z.of_nat m)) = M.
Proof. unfold M, D. f_equal. f_equal. lia. Qed.
Lemma one_absent x : In x (words D) -> lsumR all (fun l => absent n (gword d m q l) x) = (1 - 1 / M) ^ n * K.
Proof.
  intro X. apply in_words in X. pose proof (sequence_average w d m q (other x) B n Q W LB) as A. fold all in A. unfold average in A. fold K in A.
  fold D in A. rewrite M_eq, other_sum in A by exact X. fold M in A.
  replace ((M - 1) / M) with (1 - 1 / M) in A by (field; apply M_ne). unfold absent. rewrite <- A. field. apply K_ne.
Qed.
Lemma two_absent x y : In x (words D) -> In y (words D) -> x <> y ->
  lsumR all (fun l => absent n (gword d m q l) x * absent n (gword d m q l) y) = (1 - 2 / M) ^ n * K.
Proof.
  intros X Y Ne. apply in_words in X, Y. pose proof (sequence_average w d m q (fun v => other x v * other y v) B n Q W LB) as A. fold all in A. unfold average in A. fold K in A.
  fold D in A. rewrite M_eq, other_sum2 in A by assumption. fold M in A. replace ((M - 2) / M) with (1 - 2 / M) in A by (field; apply M_ne).
  rewrite <- A. unfold absent. rewrite (lsumR_ext _ _ (fun l => rprod n (fun t => other x (gword d m q l t) * other y (gword d m q l t)))) by (intros; apply rprod_mul).
  field. apply K_ne.
Qed.
Lemma absent_idem word x : absent n word x * absent n word x = absent n word x.
Proof. rewrite absent_in. destruct (in_dec _ _ _); ring. Qed.
Lemma mean_sum : lsumR all H = missing_mean M n * K.
Proof.
  rewrite (lsumR_ext all H _ count), lsumR_swap. rewrite (lsumR_ext _ _ (fun _ => (1 - 1 / M) ^ n * K)) by exact one_absent.
  rewrite lsumR_const, words_len. fold M. unfold missing_mean. ring.
Qed.
Lemma square_sum : lsumR all (fun l => H l * H l) = (M * (1 - 1 / M) ^ n + M * (M - 1) * (1 - 2 / M) ^ n) * K.
Proof.
  rewrite (lsumR_ext all _ (fun l => lsumR (words D) (fun x => lsumR (words D) (fun y => absent n (gword d m q l) x * absent n (gword d m q l) y)))).
  - rewrite lsumR_swap.
    rewrite (lsumR_ext _ _ (fun x => lsumR (words D) (fun y => if (y =? x)%N then (1 - 1 / M) ^ n * K else (1 - 2 / M) ^ n * K))).
    + rewrite (lsumR_ext _ _ (fun _ => (1 - 1 / M) ^ n * K - (1 - 2 / M) ^ n * K + M * ((1 - 2 / M) ^ n * K))).
      * rewrite lsumR_const, words_len. fold M. ring.
      * intros x X. apply in_words in X. rewrite (words_one D x X ((1 - 1 / M) ^ n * K) (fun _ => (1 - 2 / M) ^ n * K)), lsumR_const, words_len. fold M. ring.
    + intros x X. rewrite lsumR_swap. apply lsumR_ext. intros y Y. destruct (N.eqb_spec y x) as [->|Ne].
      * rewrite <- (one_absent x X). apply lsumR_ext. intros l _. apply absent_idem.
      * apply two_absent; auto.
  - intros l L. rewrite (count l L). rewrite <- lsumR_scale_r. apply lsumR_ext. intros x _. now rewrite lsumR_scale.
Qed.
Lemma missing_average : average all H = missing_mean M n.
Proof. unfold average. fold K. rewrite mean_sum. field. apply K_ne. Qed.
Lemma missing_square c : average all (fun l => (H l - c) ^ 2) = missing_variance M n + (missing_mean M n - c) ^ 2.
Proof.
  unfold average. fold K. rewrite (lsumR_ext all _ (fun l => H l * H l + (- (2 * c) * H l + c ^ 2))) by (intros; ring).
  rewrite !lsumR_plus, lsumR_scale, lsumR_const, square_sum, mean_sum. fold K. unfold missing_variance. field. apply K_ne.
Qed.
End Moments.
