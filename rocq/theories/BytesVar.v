(** The statistic of dab_bytedistrib as a sum over pairs of words. *)
From Coq Require Import Lia Lra Permutation.
From Verif Require Export BytesLaw.
From Verif Require Import BaseLemmas OpermReal RunsArcs RunsLaw VtestLaw RankLawLemmas MissingLaw MissingLemmas WindowLaw DnaLaw WordDigits WordCode KsReals KernelLaw.
Open Scope R_scope.

(** ** words drawn independently *)
Section Drawn.
Variable w : N.
Variable M : nat.
Local Notation all := (matrices w M).
Definition wd (p : nat) (l : list N) : N := nth p l 0%N.
Definition turn (p : nat) (b : N) (l : list N) : list N := set_nth l p (N.lxor (nth p l 0%N) b).
Lemma wd_in p l : (p < M)%nat -> In l all -> In (wd p l) (words w).
Proof. intros P I. apply in_matrices in I. destruct I as (E & B). apply in_words. apply B. apply nth_In. lia. Qed.
Lemma turn_in p b l : (p < M)%nat -> In b (words w) -> In l all -> In (turn p b l) all.
Proof.
  intros P B I. pose proof (wd_in p l P I) as V. apply in_words in B, V. apply in_matrices in I. destruct I as (E & G). apply in_matrices. unfold turn. rewrite set_nth_length. split; [exact E|].
  intros x X. apply (In_nth _ _ 0%N) in X. destruct X as (k & K & <-). rewrite set_nth_length in K. destruct (Nat.eq_dec p k) as [->|NE].
  - rewrite nth_set_nth_eq by exact K. now apply lxor_lt.
  - rewrite nth_set_nth_ne by exact NE. apply G, nth_In, K.
Qed.
Lemma turn_twice p b l : (p < M)%nat -> In l all -> turn p b (turn p b l) = l.
Proof.
  intros P I. apply in_matrices in I. destruct I as (E & _). unfold turn. rewrite nth_set_nth_eq by lia. rewrite N.lxor_assoc, N.lxor_nilpotent, N.lxor_0_r.
  apply nth_ext with (d := 0%N) (d' := 0%N); [now rewrite !set_nth_length|]. intros k K. rewrite !set_nth_length in K. destruct (Nat.eq_dec p k) as [->|NE].
  - now rewrite nth_set_nth_eq by (rewrite set_nth_length; exact K).
  - now rewrite !nth_set_nth_ne by exact NE.
Qed.
Lemma turn_perm p b : (p < M)%nat -> In b (words w) -> Permutation (map (turn p b) all) all.
Proof. intros P B. apply inv_perm; [apply matrices_nodup|]. intros l I. split; [now apply turn_in|now apply turn_twice]. Qed.
Lemma turn_other p q b l : (p < M)%nat -> (q < M)%nat -> q <> p -> In b (words w) -> In l all -> wd q (turn p b l) = wd q l.
Proof. intros P Q NE B I. unfold wd, turn. apply nth_set_nth_ne. congruence. Qed.
Lemma turn_same p l (h : N -> R) : (p < M)%nat -> In l all -> lsumR (words w) (fun b => h (wd p (turn p b l))) = lsumR (words w) h.
Proof.
  intros P I. pose proof (wd_in p l P I) as V. apply in_words in V.
  rewrite (OpermReal.lsumR_ext _ _ (fun b => h (N.lxor (wd p l) b))).
  2: { intros b B. unfold wd, turn. apply in_matrices in I. now rewrite nth_set_nth_eq by lia. }
  rewrite <- (VtestLaw.lsumR_map (N.lxor (wd p l)) h). apply lsumR_perm. apply inv_perm; [apply words_nodup|]. intros x Hx. apply in_words in Hx. split.
  - apply in_words. now apply lxor_lt.
  - rewrite <- N.lxor_assoc, N.lxor_nilpotent, N.lxor_0_l. reflexivity.
Qed.
End Drawn.

(** ** the pairs of words that meet in a table *)
Definition third (p q : nat) : R := b2r (p mod 3 =? q mod 3)%nat.
Lemma mod3 t i : (i < 3)%nat -> ((t * 3 + i) mod 3 = i)%nat.
Proof. intro I. rewrite Nat.add_comm, Nat.mod_add by lia. now apply Nat.mod_small. Qed.
Lemma third_same s t i : (i < 3)%nat -> third (s * 3 + i) (t * 3 + i) = 1.
Proof. intro I. unfold third. rewrite !mod3 by exact I. now rewrite Nat.eqb_refl. Qed.
Lemma third_other s t i j : (i < 3)%nat -> (j < 3)%nat -> i <> j -> third (s * 3 + i) (t * 3 + j) = 0.
Proof. intros I J NE. unfold third. rewrite !mod3 by assumption. apply Nat.eqb_neq in NE. now rewrite NE. Qed.
Lemma third_row t i F : (i < 3)%nat -> rsum (t * 3 + i) (fun p => third p (t * 3 + i) * F p) = rsum t (fun s => F (s * 3 + i)%nat).
Proof.
  intro I. rewrite rsum_split, rsum_rows.
  rewrite (rsum_ext i _ (fun _ => 0)).
  2: { intros k K. rewrite third_other by lia. ring. }
  rewrite rsum_zero, Rplus_0_r. apply rsum_ext. intros s S. assert (D : i = 0%nat \/ i = 1%nat \/ i = 2%nat) by lia.
  destruct D as [->|[->| ->]]; cbn [rsum];
  [rewrite (third_same s t 0), (third_other s t 1 0), (third_other s t 2 0) by lia|rewrite (third_other s t 0 1), (third_same s t 1), (third_other s t 2 1) by lia
  |rewrite (third_other s t 0 2), (third_other s t 1 2), (third_same s t 2) by lia]; ring.
Qed.
Lemma third_total n (F : nat -> nat -> R) : rsum (n * 3) (fun q => rsum q (fun p => third p q * F p q)) =
  rsum 3 (fun i => rsum n (fun t => rsum t (fun s => F (s * 3 + i)%nat (t * 3 + i)%nat))).
Proof.
  rewrite rsum_rows, rsum_swap. apply rsum_ext. intros i I. apply rsum_ext. intros t T. exact (third_row t i (fun p => F p (t * 3 + i)%nat) I).
Qed.
Lemma third_number n : rsum (n * 3) (fun q => rsum q (fun p => third p q ^ 2)) = 3 * (INR n * (INR n - 1) / 2).
Proof.
  rewrite (rsum_ext (n * 3) _ (fun q => rsum q (fun p => third p q * 1))).
  - rewrite (third_total n (fun _ _ => 1)). rewrite (rsum_ext 3 _ (fun _ => INR n * (INR n - 1) / 2)) by (intros; apply BytesLaw.triangle). rewrite rsum_const. cbn [INR]. ring.
  - intros q _. apply rsum_ext. intros p _. unfold third. destruct (_ =? _)%nat; unfold b2r; ring.
Qed.

Section Law.
Variable w : N.
Hypothesis w8 : (8 <= w)%N.
Hypothesis w32 : (w <= 32)%N.
Variable n : nat.
Hypothesis n1 : (1 <= n)%nat.
Local Notation all := (matrices w (n * 3)).
Definition ztotal (l : list N) : R := total wd (zeta w) third (n * 3) l.
Lemma chisq_total l : bytes_chisq w n (drawn l) 0 = 2295 + 2 / INR n * ztotal l.
Proof.
  assert (NZ : INR n <> 0) by (apply not_0_INR; lia).
  unfold bytes_chisq. rewrite (rsum_ext 3 _ (fun i => 765 + 2 / INR n * rsum n (fun t => rsum t (fun s => zeta w (wd (s * 3 + i) l) (wd (t * 3 + i) l))))).
  - unfold ztotal, total, row. rewrite (third_total n (fun p q => zeta w (wd p l) (wd q l))). rewrite <- rsum_plus, rsum_const, rsum_scale. cbn [INR]. ring.
  - intros i I. rewrite (rsum_ext 3 _ (fun j => 255 + 2 / INR n * rsum n (fun t => rsum t (fun s => 256 * BytesLaw.meet (sampled_byte w (drawn l) 0 i j) s t - 1)))).
    + rewrite <- rsum_plus, rsum_const, <- rsum_scale. cbn [INR]. rewrite (rsum_swap 3 n).
      rewrite (rsum_ext n (fun t => rsum t (fun s => zeta w (wd (s * 3 + i) l) (wd (t * 3 + i) l))) (fun t => rsum 3 (fun j => rsum t (fun s => 256 * BytesLaw.meet (sampled_byte w (drawn l) 0 i j) s t - 1)))); [ring|].
      intros t T. rewrite rsum_swap. apply rsum_ext. intros s S. unfold zeta. apply rsum_ext. intros j J. unfold BytesLaw.meet, sampled_byte, wd, drawn.
      replace (0 + 3 * s + i)%nat with (s * 3 + i)%nat by lia. replace (0 + 3 * t + i)%nat with (t * 3 + i)%nat by lia. reflexivity.
    + intros j J. unfold byte_chisq. pose proof (pearson_pairs 256 (sampled_byte w (drawn l) 0 i j) (fun t => field_lt _ _ _) n n1 ltac:(lia)) as P.
      replace (INR 256) with 256 in P by (rewrite INR_IZR_INZ; reflexivity). rewrite P. ring.
Qed.
Lemma ztotal_mean : average all ztotal = 0.
Proof.
  apply (total_mean all (n * 3) (words w) wd turn); [apply words_ne|apply turn_perm|intros; now apply (turn_other w (n * 3))|intros; now apply (turn_same w (n * 3))|intros; now apply (wd_in w (n * 3))|apply zeta_mean1; assumption|apply zeta_mean2; assumption|lia].
Qed.
Lemma ztotal_square : average all (fun l => ztotal l ^ 2) = 3 * (INR n * (INR n - 1) / 2) * rsum 3 (fun i => rsum 3 (fun j => 2 ^ shared_bits w i j - 1)).
Proof.
  unfold ztotal. rewrite (total_square all (n * 3) (words w) wd turn);
    [|apply d_ne|apply words_ne|apply turn_perm|intros; now apply (turn_other w (n * 3))|intros; now apply (turn_same w (n * 3))|intros; now apply (wd_in w (n * 3))|apply zeta_mean1; assumption|apply zeta_mean2; assumption|lia].
  rewrite third_number. unfold K. now rewrite zeta_square.
Qed.
Theorem bytes_mean : average all (fun l => bytes_chisq w n (drawn l) 0) = 2295.
Proof.
  rewrite (average_ext all _ (fun l => 2295 + 2 / INR n * ztotal l)) by (intros; apply chisq_total).
  rewrite average_plus, average_scale, ztotal_mean, average_const by apply d_ne. ring.
Qed.
Theorem bytes_square : average all (fun l => (bytes_chisq w n (drawn l) 0 - 2295) ^ 2) = bytes_variance w n.
Proof.
  assert (NZ : INR n <> 0) by (apply not_0_INR; lia).
  rewrite (average_ext all _ (fun l => (2 / INR n) ^ 2 * ztotal l ^ 2)) by (intros; rewrite chisq_total; ring).
  rewrite average_scale, ztotal_square. unfold bytes_variance. field. exact NZ.
Qed.
End Law.
