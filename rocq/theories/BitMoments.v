(** Moments of sums of independent fair signs. *)
From Coq Require Import Lia Lra Permutation.
From Verif Require Export OpermStatSpec.
From Verif Require Import OpermReal RunsArcs VtestLaw WindowLaw.
Open Scope R_scope.

Section Signs.
Context {W : Type}.
Variable all : list W.
Variable n : nat.
Variable e : nat -> W -> R.
Variable flip : nat -> W -> W.
Hypothesis all_ne : all <> [].
Hypothesis perm : forall p, (p < n)%nat -> Permutation (map (flip p) all) all.
Hypothesis own : forall p l, (p < n)%nat -> In l all -> e p (flip p l) = - e p l.
Hypothesis others : forall p q l, (p < n)%nat -> (q < n)%nat -> q <> p -> In l all -> e q (flip p l) = e q l.
Hypothesis unit : forall p l, (p < n)%nat -> In l all -> e p l * e p l = 1.

Lemma odd p F : (p < n)%nat -> (forall l, In l all -> F (flip p l) = - F l) -> average all F = 0.
Proof.
  intros P O. assert (E : average all F = - average all F).
  { rewrite <- (average_perm _ _ F (perm p P)) at 1. rewrite average_map. rewrite (average_ext all _ (fun l => -1 * F l)) by (intros; rewrite O by assumption; ring). rewrite average_scale. ring. }
  lra.
Qed.
Definition S (k : nat) (l : W) : R := rsum k (fun p => e p l).
Lemma S_other k p l : (k <= n)%nat -> (k <= p < n)%nat -> In l all -> S k (flip p l) = S k l.
Proof. intros K P I. unfold S. apply rsum_ext. intros q Q. apply others; [lia|lia|lia|exact I]. Qed.
Lemma S_own k p l : (p < k)%nat -> (k <= n)%nat -> In l all -> S k (flip p l) = S k l - 2 * e p l.
Proof.
  unfold S. induction k as [|k IH]; intros P K I; [lia|]. cbn [rsum]. destruct (Nat.eq_dec p k) as [->|NE].
  - rewrite own by (assumption || lia). fold (S k (flip k l)) (S k l). rewrite S_other by (assumption || lia). ring.
  - rewrite IH by (assumption || lia). rewrite others by (assumption || lia). ring.
Qed.
Lemma S_mean k : (k <= n)%nat -> average all (S k) = 0.
Proof.
  intro K. unfold S. rewrite average_rsum. rewrite (rsum_ext k _ (fun _ => 0)); [rewrite rsum_const; ring|]. intros p P. apply (odd p); [lia|]. intros l I. apply own; [lia|exact I].
Qed.
Lemma S_square k : (k <= n)%nat -> average all (fun l => S k l ^ 2) = INR k.
Proof.
  induction k as [|k IH]; intro K; [unfold S; cbn [rsum]; rewrite (average_ext all _ (fun _ => 0)) by (intros; ring); apply average_zero|].
  rewrite (average_ext all _ (fun l => S k l ^ 2 + (2 * (S k l * e k l) + 1))).
  - rewrite !average_plus, average_scale, IH, average_const, S_INR by (assumption || lia). rewrite (odd k (fun l => S k l * e k l)); [ring|lia|]. intros l I. rewrite own, S_other by (assumption || lia). ring.
  - intros l I. unfold S. cbn [rsum]. fold (S k l). replace ((S k l + e k l) ^ 2) with (S k l ^ 2 + 2 * (S k l * e k l) + e k l * e k l) by ring. rewrite unit by (assumption || lia). ring.
Qed.
Lemma S_fourth k : (k <= n)%nat -> average all (fun l => S k l ^ 4) = 3 * INR k ^ 2 - 2 * INR k.
Proof.
  induction k as [|k IH]; intro K; [unfold S; cbn [rsum]; rewrite (average_ext all _ (fun _ => 0)) by (intros; ring); rewrite average_zero; cbn; ring|].
  rewrite (average_ext all _ (fun l => S k l ^ 4 + (4 * ((S k l ^ 3 + S k l) * e k l) + (6 * S k l ^ 2 + 1)))).
  - rewrite !average_plus, !average_scale, IH, S_square, average_const, S_INR by (assumption || lia). rewrite (odd k (fun l => (S k l ^ 3 + S k l) * e k l)); [ring|lia|]. intros l I. rewrite own, S_other by (assumption || lia). ring.
  - intros l I. unfold S. cbn [rsum]. fold (S k l). pose proof (unit k l ltac:(lia) I) as U.
    replace ((S k l + e k l) ^ 4) with (S k l ^ 4 + 4 * (S k l ^ 3 * e k l) + 6 * S k l ^ 2 * (e k l * e k l) + 4 * S k l * (e k l * e k l) * e k l + (e k l * e k l) * (e k l * e k l)) by ring.
    rewrite U. ring.
Qed.

(** neighbours around the circle *)
Definition next (p : nat) : nat := ((p + 1) mod n)%nat.
Definition C (k : nat) (l : W) : R := rsum k (fun p => e p l * e (next p) l).
Hypothesis n3 : (3 <= n)%nat.
Lemma next_in p : (next p < n)%nat.
Proof. apply Nat.mod_upper_bound. lia. Qed.
Lemma next_small p : (p + 1 < n)%nat -> next p = (p + 1)%nat.
Proof. intro H. now apply Nat.mod_small. Qed.
Lemma next_last : next (n - 1) = 0%nat.
Proof. unfold next. replace (n - 1 + 1)%nat with n by lia. apply Nat.mod_same. lia. Qed.
Lemma next_ne p : (p < n)%nat -> next p <> p.
Proof. intro P. destruct (Nat.eq_dec p (n - 1)) as [->|NE]; [rewrite next_last; lia|rewrite next_small; lia]. Qed.
Lemma pair_mean p q : (p < n)%nat -> (q < n)%nat -> p <> q -> average all (fun l => e p l * e q l) = 0.
Proof. intros P Q NE. apply (odd p); [exact P|]. intros l I. rewrite own, others by (assumption || lia). ring. Qed.
Lemma C_mean k : (k <= n)%nat -> average all (C k) = 0.
Proof.
  intro K. unfold C. rewrite average_rsum. rewrite (rsum_ext k _ (fun _ => 0)); [rewrite rsum_const; ring|]. intros p P.
  apply pair_mean; [lia|apply next_in|]. intro E. symmetry in E. revert E. apply next_ne. lia.
Qed.
Lemma C_other k l : (k + 1 < n)%nat -> In l all -> C k (flip (k + 1) l) = C k l.
Proof.
  intros K I. unfold C. apply rsum_ext. intros p P. rewrite next_small by lia. rewrite !others by (assumption || lia). reflexivity.
Qed.
Lemma unit2 p q l : (p < n)%nat -> (q < n)%nat -> In l all -> (e p l * e q l) ^ 2 = 1.
Proof. intros P Q I. replace ((e p l * e q l) ^ 2) with ((e p l * e p l) * (e q l * e q l)) by ring. rewrite !unit by assumption. ring. Qed.
Lemma C_square_open k : (k + 1 <= n)%nat -> average all (fun l => C k l ^ 2) = INR k.
Proof.
  induction k as [|k IH]; intro K; [unfold C; cbn [rsum]; rewrite (average_ext all _ (fun _ => 0)) by (intros; ring); apply average_zero|].
  rewrite (average_ext all _ (fun l => C k l ^ 2 + (2 * (C k l * e k l * e (k + 1) l) + 1))).
  - rewrite !average_plus, average_scale, IH, average_const, S_INR by (assumption || lia). rewrite (odd (k + 1) (fun l => C k l * e k l * e (k + 1) l)); [ring|lia|].
    intros l I. rewrite own, (others (k + 1) k), C_other by (assumption || lia). ring.
  - intros l I. unfold C. cbn [rsum]. fold (C k l). rewrite next_small by lia. pose proof (unit2 k (k + 1) l ltac:(lia) ltac:(lia) I) as U.
    replace ((C k l + e k l * e (k + 1)%nat l) ^ 2) with (C k l ^ 2 + 2 * (C k l * e k l * e (k + 1)%nat l) + (e k l * e (k + 1)%nat l) ^ 2) by ring. rewrite U. ring.
Qed.
Lemma C_square : average all (fun l => C n l ^ 2) = INR n.
Proof.
  set (k := (n - 1)%nat). assert (E : n = Datatypes.S k) by (unfold k; lia). assert (En : INR n = INR k + 1) by (rewrite E at 1; apply S_INR).
  rewrite (average_ext all _ (fun l => C k l ^ 2 + (2 * rsum k (fun p => e p l * e (next p) l * (e k l * e 0%nat l)) + 1))).
  - rewrite !average_plus, average_scale, C_square_open, average_const by (assumption || lia). rewrite average_rsum, (rsum_ext k _ (fun _ => 0)).
    + rewrite rsum_const, En. ring.
    + intros p P. rewrite next_small by lia. destruct p as [|p].
      * apply (odd 1); [lia|]. intros l I. change (0 + 1)%nat with 1%nat. rewrite own, !others by (assumption || lia). ring.
      * apply (odd 0); [lia|]. intros l I. rewrite own, !others by (assumption || lia). ring.
  - intros l I. unfold C at 1. rewrite E at 1. cbn [rsum]. fold (C k l). unfold k at 3. rewrite next_last. pose proof (unit2 k 0 l ltac:(lia) ltac:(lia) I) as U.
    replace ((C k l + e k l * e 0%nat l) ^ 2) with (C k l ^ 2 + 2 * ((e k l * e 0%nat l) * C k l) + (e k l * e 0%nat l) ^ 2) by ring. rewrite U. unfold C at 2. rewrite rsum_scale.
    rewrite (rsum_ext k _ (fun p => e p l * e (next p) l * (e k l * e 0%nat l))) by (intros; ring). ring.
Qed.
Lemma pair_square p q : (p < n)%nat -> (q < n)%nat -> p <> q -> average all (fun l => S n l ^ 2 * (e p l * e q l)) = 2.
Proof.
  intros P Q NE. set (D := fun l => S n l - e p l - e q l).
  assert (Dp : forall l, In l all -> D (flip p l) = D l) by (intros l I; unfold D; rewrite S_own, own, (others p q) by (assumption || lia); ring).
  assert (Dq : forall l, In l all -> D (flip q l) = D l) by (intros l I; unfold D; rewrite S_own, own, (others q p) by (assumption || lia); ring).
  rewrite (average_ext all _ (fun l => (D l ^ 2 + 2) * (e p l * e q l) + (2 * (D l * e p l) + (2 * (D l * e q l) + 2)))).
  - rewrite !average_plus, !average_scale, average_const by assumption. rewrite (odd p (fun l => D l * e p l)), (odd q (fun l => D l * e q l)), (odd p); [ring|assumption| | assumption| |assumption|].
    + intros l I. rewrite Dp, own, others by (assumption || lia). ring.
    + intros l I. rewrite Dq, own by assumption. ring.
    + intros l I. rewrite Dp, own by assumption. ring.
  - intros l I. assert (SD : S n l = D l + e p l + e q l) by (unfold D; ring). rewrite SD. pose proof (unit p l P I) as Up. pose proof (unit q l Q I) as Uq.
    transitivity (D l ^ 2 * (e p l * e q l) + (e p l * e p l) * (e p l * e q l) + (e q l * e q l) * (e p l * e q l) + 2 * (D l * e q l) * (e p l * e p l) + 2 * (D l * e p l) * (e q l * e q l) + 2 * (e p l * e p l) * (e q l * e q l)); [ring|].
    rewrite Up, Uq. ring.
Qed.
Lemma mixed : average all (fun l => S n l ^ 2 * C n l) = 2 * INR n.
Proof.
  unfold C. rewrite (average_ext all _ (fun l => rsum n (fun p => S n l ^ 2 * (e p l * e (next p) l)))) by (intros; apply rsum_scale).
  rewrite average_rsum, (rsum_ext n _ (fun _ => 2)); [rewrite rsum_const; ring|]. intros p P. apply pair_square; [exact P|apply next_in|]. intro E. symmetry in E. revert E. now apply next_ne.
Qed.
End Signs.
