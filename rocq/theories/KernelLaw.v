(** The second moment of sums of a function of two of many independent digits. *)
From Coq Require Import Lia Lra Permutation.
From Verif Require Import OpermReal RunsArcs WindowLaw.
From Verif Require Export OpermStatSpec KsSpec.
Open Scope R_scope.

Section Kernel.
Context {W : Type}.
Variable all : list W.
Variable L : nat.
Variable bs : list N.
Variable X : nat -> W -> N.
Variable sigma : nat -> N -> W -> W.
Hypothesis all_ne : all <> [].
Hypothesis bs_ne : bs <> [].
Hypothesis perm : forall p b, (p < L)%nat -> In b bs -> Permutation (map (sigma p b) all) all.
Hypothesis other : forall p q b l, (p < L)%nat -> (q < L)%nat -> q <> p -> In b bs -> In l all -> X q (sigma p b l) = X q l.
Hypothesis same : forall p l h, (p < L)%nat -> In l all -> lsumR bs (fun b => h (X p (sigma p b l))) = lsumR bs h.
Hypothesis digit : forall p l, (p < L)%nat -> In l all -> In (X p l) bs.
(** a function of two digits without a mean in either, and any coefficients *)
Variable zeta : N -> N -> R.
Hypothesis z1 : forall y, In y bs -> average bs (fun x => zeta x y) = 0.
Hypothesis z2 : forall x, In x bs -> average bs (fun y => zeta x y) = 0.
Variable c : nat -> nat -> R.
Definition K : R := average bs (fun y => average bs (fun x => zeta x y ^ 2)).
Definition row (q k : nat) (l : W) : R := rsum k (fun p => c p q * zeta (X p l) (X q l)).
Definition total (k : nat) (l : W) : R := rsum k (fun q => row q q l).

Lemma row_apart q k p : (p < L)%nat -> (q < L)%nat -> (k <= p)%nat -> q <> p -> apart all bs sigma p (row q k).
Proof.
  intros P Q KP NE b l B I. unfold row. apply rsum_ext. intros r R. rewrite !other by (assumption || lia). reflexivity.
Qed.
Lemma total_apart k p : (p < L)%nat -> (k <= p)%nat -> apart all bs sigma p (total k).
Proof. intros P KP b l B I. unfold total. apply rsum_ext. intros q Q. apply (row_apart q q p); auto; lia. Qed.
Lemma other_apart q p (h : N -> R) : (p < L)%nat -> (q < L)%nat -> q <> p -> apart all bs sigma p (fun l => h (X q l)).
Proof. intros P Q NE b l B I. now rewrite other. Qed.
Lemma alone_mean q (h : N -> R) : (q < L)%nat -> average all (fun l => h (X q l)) = average bs h.
Proof.
  intro Q. rewrite (average_ext all _ (fun l => 1 * h (X q l))) by (intros; ring).
  rewrite (split_off all L bs X sigma bs_ne perm same q (fun _ => 1) h Q) by (intros b l B I; reflexivity). rewrite average_const by exact all_ne. ring.
Qed.
Lemma row_square q : (q < L)%nat -> forall k, (k <= q)%nat -> average all (fun l => row q k l ^ 2) = rsum k (fun p => c p q ^ 2) * K.
Proof.
  intros Q. induction k as [|k IH]; intro KQ.
  - cbn [rsum]. rewrite (average_ext all _ (fun _ => 0)) by (intros; unfold row; cbn [rsum]; ring). rewrite average_zero. ring.
  - rewrite (average_ext all _ (fun l => (row q k l ^ 2 + 2 * c k q * (row q k l * zeta (X k l) (X q l))) + c k q ^ 2 * (1 * zeta (X k l) (X q l) ^ 2)))
      by (intros; unfold row; cbn [rsum]; ring).
    rewrite !average_plus, (average_scale all (2 * c k q)), (average_scale all (c k q ^ 2)), IH by lia. cbn [rsum].
    rewrite (split_off2 all L bs X sigma bs_ne perm same k (row q k) (fun l x => zeta x (X q l))).
    2: lia. 2: { apply row_apart; lia. } 2: { intro x. apply (other_apart q k (fun y => zeta x y)); lia. }
    rewrite (average_ext all _ (fun _ => 0)). 2: { intros l I. rewrite z1 by now apply digit. ring. }
    rewrite average_zero.
    rewrite (split_off2 all L bs X sigma bs_ne perm same k (fun _ => 1) (fun l x => zeta x (X q l) ^ 2)).
    2: lia. 2: { intros b l B I. reflexivity. } 2: { intro x. apply (other_apart q k (fun y => zeta x y ^ 2)); lia. }
    rewrite average_scale, (alone_mean q (fun y => average bs (fun x => zeta x y ^ 2)) Q). fold K. ring.
Qed.
Lemma row_mean_zero l q : In l all -> (q <= L)%nat -> average bs (fun y => rsum q (fun p => c p q * zeta (X p l) y)) = 0.
Proof.
  intros I Q. rewrite average_rsum. rewrite (rsum_ext q _ (fun _ => 0)).
  - clear. induction q; cbn [rsum]; lra.
  - intros p P. rewrite average_scale, z2 by (apply digit; [lia|exact I]). ring.
Qed.
Theorem total_square k : (k <= L)%nat -> average all (fun l => total k l ^ 2) = rsum k (fun q => rsum q (fun p => c p q ^ 2)) * K.
Proof.
  induction k as [|k IH]; intro KL.
  - cbn [rsum]. rewrite (average_ext all _ (fun _ => 0)) by (intros; unfold total; cbn [rsum]; ring). rewrite average_zero. ring.
  - rewrite (average_ext all _ (fun l => (total k l ^ 2 + 2 * (total k l * row k k l)) + row k k l ^ 2)) by (intros; unfold total; cbn [rsum]; ring).
    rewrite !average_plus, !average_scale, IH, row_square by lia. cbn [rsum]. unfold row at 1.
    rewrite (split_off2 all L bs X sigma bs_ne perm same k (total k) (fun l y => rsum k (fun p => c p k * zeta (X p l) y))).
    2: lia. 2: { apply total_apart; lia. }
    2: { intros x b l B I. apply rsum_ext. intros p P. rewrite other by (assumption || lia). reflexivity. }
    rewrite (average_ext all _ (fun _ => 0)). 2: { intros l I. rewrite row_mean_zero by (assumption || lia). ring. }
    rewrite average_zero. ring.
Qed.
Theorem total_mean k : (k <= L)%nat -> average all (total k) = 0.
Proof.
  induction k as [|k IH]; intro KL.
  - rewrite (average_ext all _ (fun _ => 0)) by (intros; reflexivity). apply average_zero.
  - rewrite (average_ext all _ (fun l => total k l + 1 * row k k l)) by (intros; unfold total; cbn [rsum]; ring).
    rewrite average_plus, IH by lia. unfold row.
    rewrite (split_off2 all L bs X sigma bs_ne perm same k (fun _ => 1) (fun l y => rsum k (fun p => c p k * zeta (X p l) y))).
    2: lia. 2: { intros b l B I. reflexivity. }
    2: { intros x b l B I. apply rsum_ext. intros p P. rewrite other by (assumption || lia). reflexivity. }
    rewrite (average_ext all _ (fun _ => 0)). 2: { intros l I. rewrite row_mean_zero by (assumption || lia). ring. }
    rewrite average_zero. ring.
Qed.
End Kernel.
