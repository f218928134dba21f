(** The digits of equally likely words as independent digits. *)
From Coq Require Import Lia Permutation.
From Verif Require Export WordSpec RankLawSpec OpermStatSpec.
From Verif Require Import BaseLemmas BitsLemmas RankLawLemmas MissingLaw DnaLaw RunsLaw WindowLaw.
Open Scope N_scope.

Lemma inv_perm {A} (l : list A) g : NoDup l -> (forall x, In x l -> In (g x) l /\ g (g x) = x) -> Permutation (map g l) l.
Proof.
  intros D H. apply NoDup_Permutation.
  - assert (I : forall x y, In x l -> In y l -> g x = g y -> x = y). { intros x y X Y E. rewrite <- (proj2 (H x X)), <- (proj2 (H y Y)), E. reflexivity. }
    clear H. induction D as [|a l N D IH]; cbn [map]; constructor.
    + intro K. apply in_map_iff in K. destruct K as (y & E & Y). apply I in E; [subst; contradiction|now right|now left].
    + apply IH. intros x y X Y. apply I; now right.
  - exact D.
  - intro x. rewrite in_map_iff. split.
    + intros (y & <- & Y). apply H, Y.
    + intro X. exists (g x). split; [apply H, X|apply H, X].
Qed.
Lemma lxor_lt a b w : a < 2 ^ w -> b < 2 ^ w -> N.lxor a b < 2 ^ w.
Proof.
  intros A B. apply lt_pow2_testbit. intros i I. rewrite N.lxor_spec, !(testbit_lt _ w) by assumption. reflexivity.
Qed.

Section Digits.
Variable w : N.
Variable n L k : nat.
(** digit p is made of bits [loc p j], j < k, of word number [idx p] *)
Variable idx : nat -> nat.
Variable loc : nat -> N -> N.
Hypothesis idx_in : forall p, (p < L)%nat -> (idx p < n)%nat.
Hypothesis loc_in : forall p j, (p < L)%nat -> j < N.of_nat k -> loc p j < w.
Hypothesis places : forall p q i j, (p < L)%nat -> (q < L)%nat -> i < N.of_nat k -> j < N.of_nat k ->
  idx p = idx q -> loc p i = loc q j -> p = q /\ i = j.

Definition digit_of (p : nat) (x : N) : N := number_of_bits (fun j => N.testbit x (loc p j)) k.
Definition digit_at (p : nat) (l : list N) : N := digit_of p (nth (idx p) l 0).
Definition mask_of (p : nat) (b : N) : N :=
  number_of_bits (fun t => existsb (fun j => (t =? loc p j) && N.testbit b j) (map N.of_nat (seq 0 k))) (N.to_nat w).
Definition change (p : nat) (b : N) (l : list N) : list N := set_nth l (idx p) (N.lxor (nth (idx p) l 0) (mask_of p b)).

Lemma mask_lt p b : mask_of p b < 2 ^ w.
Proof. unfold mask_of. pose proof (number_of_bits_lt (fun t => existsb (fun j => (t =? loc p j) && N.testbit b j) (map N.of_nat (seq 0 k))) (N.to_nat w)) as H. rewrite N2Nat.id in H. exact H. Qed.
Lemma in_js j : In j (map N.of_nat (seq 0 k)) <-> j < N.of_nat k.
Proof.
  rewrite in_map_iff. split; [intros (x & <- & X); apply in_seq in X; lia|]. intro H. exists (N.to_nat j). split; [lia|]. apply in_seq. lia.
Qed.
Lemma mask_bit p q b i : (p < L)%nat -> (q < L)%nat -> i < N.of_nat k -> idx q = idx p ->
  N.testbit (mask_of p b) (loc q i) = if (q =? p)%nat then N.testbit b i else false.
Proof.
  intros P Q I E. unfold mask_of. rewrite testbit_number_of_bits, N2Nat.id. rewrite (proj2 (N.ltb_lt _ _) (loc_in q i Q I)). cbn [andb].
  destruct (Nat.eqb_spec q p) as [->|NE].
  - destruct (N.testbit b i) eqn:B.
    + apply existsb_exists. exists i. split; [now apply in_js|]. rewrite N.eqb_refl, B. reflexivity.
    + apply not_true_iff_false. intro H. apply existsb_exists in H. destruct H as (j & J & T). apply in_js in J. apply andb_true_iff in T. destruct T as (T1 & T2).
      apply N.eqb_eq in T1. destruct (places p p i j P P I J eq_refl T1) as (_ & <-). congruence.
  - apply not_true_iff_false. intro H. apply existsb_exists in H. destruct H as (j & J & T). apply in_js in J. apply andb_true_iff in T. destruct T as (T1 & _).
    apply N.eqb_eq in T1. destruct (places q p i j Q P I J E T1) as (? & _). contradiction.
Qed.
Lemma digit_mask p q b x : (p < L)%nat -> (q < L)%nat -> b < 2 ^ N.of_nat k -> idx q = idx p ->
  digit_of q (N.lxor x (mask_of p b)) = if (q =? p)%nat then N.lxor (digit_of q x) b else digit_of q x.
Proof.
  intros P Q B E. unfold digit_of.
  transitivity (number_of_bits (fun j => xorb (N.testbit x (loc q j)) (if (q =? p)%nat then N.testbit b j else false)) k).
  - apply number_of_bits_ext. intros j J. rewrite N.lxor_spec, mask_bit by assumption. reflexivity.
  - destruct (q =? p)%nat.
    + apply N.bits_inj. intro i. rewrite N.lxor_spec, !testbit_number_of_bits. destruct (N.ltb_spec i (N.of_nat k)); cbn [andb]; [reflexivity|].
      rewrite (testbit_lt _ (N.of_nat k)) by assumption. reflexivity.
    + apply number_of_bits_ext. intros j J. now rewrite xorb_false_r.
Qed.
Lemma change_in p b l : (p < L)%nat -> In l (matrices w n) -> In (change p b l) (matrices w n).
Proof.
  intros P I. apply in_matrices in I. apply in_matrices. destruct I as (Ln & B). unfold change. rewrite set_nth_length. split; [exact Ln|]. intros x X.
  apply In_nth with (d := 0) in X. destruct X as (j & J & <-). rewrite set_nth_length in J. destruct (Nat.eq_dec (idx p) j) as [<-|NE].
  - rewrite nth_set_nth_eq by exact J. apply lxor_lt; [|apply mask_lt]. apply B, nth_In. exact J.
  - rewrite nth_set_nth_ne by exact NE. apply B, nth_In. exact J.
Qed.
Lemma change_twice p b l : (p < L)%nat -> In l (matrices w n) -> change p b (change p b l) = l.
Proof.
  intros P I. apply in_matrices in I. destruct I as (Ln & _). pose proof (idx_in p P) as H. unfold change. apply (nth_ext _ _ 0 0); [now rewrite !set_nth_length|].
  intros j J. rewrite !set_nth_length in J. destruct (Nat.eq_dec (idx p) j) as [<-|NE].
  - rewrite !nth_set_nth_eq by (rewrite ?set_nth_length; lia). rewrite N.lxor_assoc, N.lxor_nilpotent, N.lxor_0_r. reflexivity.
  - rewrite !nth_set_nth_ne by exact NE. reflexivity.
Qed.
Lemma d_perm p b : (p < L)%nat -> In b (words (N.of_nat k)) -> Permutation (map (change p b) (matrices w n)) (matrices w n).
Proof. intros P _. apply inv_perm; [apply matrices_nodup|]. intros l I. split; [now apply change_in|now apply change_twice]. Qed.
Lemma d_other p q b l : (p < L)%nat -> (q < L)%nat -> q <> p -> In b (words (N.of_nat k)) -> In l (matrices w n) -> digit_at q (change p b l) = digit_at q l.
Proof.
  intros P Q NE B I. apply in_words in B. apply in_matrices in I. destruct I as (Ln & _). unfold digit_at, change. destruct (Nat.eq_dec (idx p) (idx q)) as [E|E].
  - rewrite <- E, nth_set_nth_eq by (rewrite Ln; auto). rewrite digit_mask by auto. apply Nat.eqb_neq in NE. now rewrite NE.
  - now rewrite nth_set_nth_ne by exact E.
Qed.
Lemma d_self p b l : (p < L)%nat -> b < 2 ^ N.of_nat k -> In l (matrices w n) -> digit_at p (change p b l) = N.lxor (digit_at p l) b.
Proof.
  intros P B I. apply in_matrices in I. destruct I as (Ln & _). unfold digit_at, change. rewrite nth_set_nth_eq by (rewrite Ln; auto). rewrite digit_mask by auto. now rewrite Nat.eqb_refl.
Qed.
Lemma d_digit p l : (p < L)%nat -> In l (matrices w n) -> In (digit_at p l) (words (N.of_nat k)).
Proof. intros P I. apply in_words. unfold digit_at, digit_of. apply number_of_bits_lt. Qed.
Lemma d_same p l (h : N -> R) : (p < L)%nat -> In l (matrices w n) ->
  lsumR (words (N.of_nat k)) (fun b => h (digit_at p (change p b l))) = lsumR (words (N.of_nat k)) h.
Proof.
  intros P I. pose proof (d_digit p l P I) as D. apply in_words in D.
  rewrite (OpermReal.lsumR_ext _ _ (fun b => h (N.lxor (digit_at p l) b))) by (intros b B; apply in_words in B; now rewrite d_self).
  rewrite <- (VtestLaw.lsumR_map (N.lxor (digit_at p l)) h). apply lsumR_perm. apply inv_perm; [apply words_nodup|]. intros x Hx. apply in_words in Hx. split.
  - apply in_words. now apply lxor_lt.
  - rewrite <- N.lxor_assoc, N.lxor_nilpotent, N.lxor_0_l. reflexivity.
Qed.
Lemma d_ne : matrices w n <> [].
Proof.
  intro E. assert (I : In (repeat 0 n) (matrices w n)).
  { apply in_matrices. rewrite repeat_length. split; [reflexivity|]. intros x X. apply repeat_spec in X. subst. apply N.neq_0_lt_0, N.pow_nonzero. discriminate. }
  rewrite E in I. destruct I.
Qed.
Lemma b_ne : words (N.of_nat k) <> [].
Proof. intro E. assert (I : In 0 (words (N.of_nat k))) by (apply in_words, N.neq_0_lt_0, N.pow_nonzero; discriminate). rewrite E in I. destruct I. Qed.
End Digits.
