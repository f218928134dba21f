(** Property C152: binomial. *)
From Coq Require Import Reals Lra Lia.
From Verif Require Import Base BaseLemmas ProbModel ProbSpec.
Open Scope R_scope.

Lemma chance_over p n : forall k, (n < k)%nat -> chance p n k = 0.
Proof.
  induction n as [|n IH]; intros k L; cbn [chance]; (destruct k as [|k]; [lia|]); [reflexivity|].
  rewrite !IH by lia. ring.
Qed.
Lemma C_0 n : C n 0 = 1.
Proof. unfold C. rewrite Nat.sub_0_r. cbn [fact]. pose proof (INR_fact_neq_0 n). change (INR 1) with 1. field. assumption. Qed.
Lemma C_n n : C n n = 1.
Proof. unfold C. rewrite Nat.sub_diag. cbn [fact]. pose proof (INR_fact_neq_0 n). change (INR 1) with 1. field. assumption. Qed.
Lemma chance_closed p n : forall k, (k <= n)%nat -> chance p n k = C n k * p ^ k * (1 - p) ^ (n - k).
Proof.
  induction n as [|n IH]; intros k L.
  - assert (k = 0)%nat by lia. subst. cbn [chance Nat.sub pow]. rewrite C_0. ring.
  - cbn [chance]. destruct k as [|k].
    + rewrite IH by lia. rewrite !C_0, !Nat.sub_0_r. cbn [pow]. ring.
    + rewrite (IH k) by lia. destruct (Nat.eq_dec k n) as [->|D].
      * rewrite chance_over by lia. rewrite !C_n, !Nat.sub_diag. cbn [pow]. ring.
      * rewrite (IH (S k)) by lia. rewrite <- (pascal n k) by lia.
        replace (S n - S k)%nat with (S (n - S k)) by lia. replace (n - k)%nat with (S (n - S k)) by lia.
        cbn [pow]. ring.
Qed.
Lemma chance_total p n : sum_f_R0 (chance p n) n = 1.
Proof.
  rewrite (sum_eq _ (fun i => C n i * p ^ i * (1 - p) ^ (n - i))).
  - rewrite <- binomial. replace (p + (1 - p)) with 1 by ring. apply pow1.
  - intros i L. apply chance_closed. exact L.
Qed.

(** Up to 170 trials the value is the probability of k successes in n trials. *)
Theorem C152_binomial : forall n k p, (k <= n)%N -> (n <= 170)%N ->
  ProbModel.binomial n k p = Ok (chance p (N.to_nat n) (N.to_nat k)).
Proof.
  intros n k p K N. unfold ProbModel.binomial. rewrite sub32_small by lia. unfold gsl_sf_fact.
  replace (n <=? 170)%N with true by lia. replace (k <=? 170)%N with true by lia.
  replace (n - k <=? 170)%N with true by lia. cbn [bind]. f_equal.
  rewrite chance_closed by lia. rewrite N2Nat.inj_sub. unfold C.
  field. split; apply INR_fact_neq_0.
Qed.
(** Over k the values add up to 1. *)
Theorem C152_total : forall n p, (n <= 170)%N -> exists f : nat -> R,
  (forall k, (k <= n)%N -> ProbModel.binomial n k p = Ok (f (N.to_nat k))) /\
  sum_f_R0 f (N.to_nat n) = 1.
Proof.
  intros n p N. exists (chance p (N.to_nat n)). split; [|apply chance_total].
  intros k K. apply C152_binomial; assumption.
Qed.
(** From 171 trials on the program is aborted, and so it is for more successes
    than trials, where the probability is 0. *)
Theorem C152_many_refuted : forall n k p, (170 < n)%N -> ProbModel.binomial n k p = Exit 134.
Proof.
  intros n k p N. unfold ProbModel.binomial, gsl_sf_fact. replace (n <=? 170)%N with false by lia. reflexivity.
Qed.
Theorem C152_over_refuted : forall n k p, (n < k)%N -> (k < 2 ^ 31)%N ->
  ProbModel.binomial n k p = Exit 134 /\ chance p (N.to_nat n) (N.to_nat k) = 0.
Proof.
  intros n k p L K. split; [|apply chance_over; lia]. unfold ProbModel.binomial, gsl_sf_fact.
  assert (M: (170 < sub32 n k)%N).
  { unfold sub32, u32_of_Z.
    assert (X: ((Z.of_N n - Z.of_N k) mod 2 ^ 32 = Z.of_N n - Z.of_N k + 2 ^ 32)%Z).
    { symmetry. apply (Z.mod_unique _ _ (-1)); lia. }
    rewrite X. lia. }
  destruct (n <=? 170)%N, (k <=? 170)%N; cbn [bind]; try reflexivity.
  replace (sub32 n k <=? 170)%N with false by lia. reflexivity.
Qed.
Example C152_ex : ProbModel.binomial 4 2 (/ 2) = Ok (3 / 8) /\ ProbModel.binomial 2 3 (/ 2) = Exit 134.
Proof.
  split; [|apply C152_over_refuted; reflexivity].
  rewrite C152_binomial by (vm_compute; discriminate). f_equal.
  change (N.to_nat 4) with 4%nat. change (N.to_nat 2) with 2%nat. cbn [chance]. lra.
Qed.

Print Assumptions C152_binomial.
Print Assumptions C152_total.
Print Assumptions C152_many_refuted.
Print Assumptions C152_over_refuted.
