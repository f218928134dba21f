(** Lemmas for C146: the law of the number of times a value is shown. *)
From Coq Require Import Lia Lra.
From Verif Require Export BitdistLawSpec.
From Verif Require Import BaseLemmas OpermReal DnaBlock RunsArcs WindowLaw KsReals WordCode VtestLaw VtestVar CrapsLaw2.
From Verif Require RankLawLemmas DnaLaw MissingLaw.
Open Scope R_scope.

Lemma matrices_tuples w m : matrices w m = tuples (words w) m.
Proof. induction m as [|m IH]; [reflexivity|]. cbn [matrices tuples]. now rewrite IH. Qed.
Lemma words_length w : length (words w) = N.to_nat (2 ^ w).
Proof. unfold words. now rewrite map_length, seq_length. Qed.
Lemma words_ne w : words w <> [].
Proof. intro E. pose proof (words_length w) as L. rewrite E in L. assert (0 < 2 ^ w)%N by (apply N.neq_0_lt_0, N.pow_nonzero; discriminate). cbn [length] in L. lia. Qed.
Lemma two_pow w : INR (N.to_nat (2 ^ w)) = 2 ^ N.to_nat w.
Proof. rewrite <- (N2Nat.id w) at 1. generalize (N.to_nat w). intro d. replace (N.to_nat (2 ^ N.of_nat d)) with (2 ^ d)%nat; [now rewrite pow_INR|]. induction d as [|d IH]; [reflexivity|]. rewrite Nat2N.inj_succ, N.pow_succ_r', N2Nat.inj_mul, <- IH. reflexivity. Qed.
Lemma lsumR_b2r {X} (b : X -> bool) l : lsumR l (fun x => b2r (b x)) = INR (length (filter b l)).
Proof.
  induction l as [|x l IH]; [reflexivity|]. cbn [lsumR filter]. rewrite IH. destruct (b x); cbn [b2r length]; [rewrite S_INR|]; ring.
Qed.
Lemma C_first n : C n 0 = 1.
Proof. unfold C. rewrite Nat.sub_0_r. change (fact 0) with 1%nat. change (INR 1) with 1. field. apply INR_fact_neq_0. Qed.
Lemma C_last n : C n n = 1.
Proof. unfold C. rewrite Nat.sub_diag. change (fact 0) with 1%nat. change (INR 1) with 1. field. apply INR_fact_neq_0. Qed.

Section Value.
Variable nb i : N.
Hypothesis value : (i < 2 ^ nb)%N.
Definition p : R := / 2 ^ N.to_nat nb.
Lemma one_word : average (words nb) (fun o => b2r (N.eqb i o)) = p.
Proof.
  unfold average, p. rewrite words_length, two_pow. unfold words. rewrite VtestLaw.lsumR_map, lsumR_seq, (rsum_single _ _ (N.to_nat i)).
  - rewrite N2Nat.id, N.eqb_refl. cbn [b2r]. unfold Rdiv. ring.
  - lia.
  - intros j J D. rewrite (proj2 (N.eqb_neq i (N.of_nat j))) by lia. reflexivity.
Qed.
Lemma branch a b : average (words nb) (fun o => if N.eqb i o then a else b) = p * a + (1 - p) * b.
Proof.
  rewrite (average_ext _ _ (fun o => (a - b) * b2r (N.eqb i o) + b)) by (intros o _; destruct (N.eqb i o); cbn [b2r]; ring).
  rewrite average_plus, average_scale, one_word, average_const by apply words_ne. ring.
Qed.
Fixpoint bino (m k : nat) : R :=
  match m with
  | O => if Nat.eqb k 0 then 1 else 0
  | S m => (match k with O => 0 | S k => p * bino m k end) + (1 - p) * bino m k
  end.
Lemma bino_law m : forall k, average (tuples (words nb) m) (fun o => b2r (Nat.eqb (shown i o) k)) = bino m k.
Proof.
  induction m as [|m IH]; intro k.
  - unfold average. cbn [tuples lsumR length]. change (shown i []) with 0%nat. destruct k; cbn; lra.
  - rewrite average_cons by apply words_ne. cbn [bino].
    rewrite (average_ext _ _ (fun o => if N.eqb i o then match k with O => 0 | S k => bino m k end else bino m k)).
    + rewrite branch. destruct k; ring.
    + intros o _. unfold shown. cbn [filter]. destruct (N.eqb i o); [|apply IH]. cbn [length]. destruct k as [|k]; [|apply IH].
      rewrite <- (average_zero (tuples (words nb) m)). apply average_ext. reflexivity.
Qed.
Lemma bino_over m : forall k, (m < k)%nat -> bino m k = 0.
Proof.
  induction m as [|m IH]; intros k L; cbn [bino]; [destruct k; [lia|reflexivity]|]. destruct k as [|k]; [lia|]. rewrite !IH by lia. ring.
Qed.
Lemma bino_binomial m : forall k, (k <= m)%nat -> bino m k = ChisqSpec.binomial m p k.
Proof.
  assert (E : forall m k, ChisqSpec.binomial m p k = C m k * p ^ k * (1 - p) ^ (m - k)) by reflexivity.
  induction m as [|m IH]; intros k L.
  - assert (k = 0)%nat by lia. subst. unfold ChisqSpec.binomial. cbn. field.
  - cbn [bino]. destruct k as [|k].
    + rewrite IH by lia. rewrite !E, !C_first, !Nat.sub_0_r. cbn [pow]. ring.
    + rewrite (IH k) by lia. destruct (Nat.eq_dec k m) as [->|D].
      * rewrite bino_over by lia. rewrite !E, !C_last, !Nat.sub_diag. cbn [pow]. ring.
      * rewrite (IH (S k)) by lia. rewrite !E, <- (pascal m k) by lia. replace (S m - S k)%nat with (m - k)%nat by lia. replace (m - k)%nat with (S (m - S k)) by lia. cbn [pow]. ring.
Qed.
Lemma share k : (k <= 64)%nat -> cell_share (trials nb) (shown i) k = ChisqSpec.binomial 64 p k.
Proof.
  intro K. rewrite <- bino_binomial by exact K. rewrite <- bino_law. unfold cell_share, number_in, average. rewrite lsumR_b2r. unfold trials. now rewrite matrices_tuples.
Qed.
End Value.

Section Terms.
Context {B : Type}.
Variable omega : list B.
Variable cell : B -> nat.
Variable k n : nat.
Variable cutoff : R.
Hypothesis nonempty : omega <> [].
Lemma share_nonneg j : 0 <= cell_share omega cell j.
Proof. unfold cell_share, number_in. apply Rmult_le_pos; [apply pos_INR|]. left. apply Rinv_0_lt_compat, size_pos, nonempty. Qed.
Lemma shares_le l : NoDup l -> lsumR l (cell_share omega cell) <= 1.
Proof.
  intro D. rewrite share_group by exact D. unfold prb, cnt. pose proof (size_pos omega nonempty) as SP0. apply (Rmult_le_reg_r _ _ _ SP0). unfold Rdiv. rewrite Rmult_assoc, Rinv_l, Rmult_1_r, Rmult_1_l by lra.
  apply le_INR. clear. induction omega as [|x w IH]; [apply le_n|]. cbn [filter]. destruct (inside _ _ x); cbn [length]; lia.
Qed.
Lemma some_terms : (forall o, In o omega -> (cell o < k)%nat) -> cutoff <= INR n -> (1 <= terms omega cell k n cutoff)%nat.
Proof.
  intros C H. pose proof (all_shares omega cell k nonempty C) as T. rewrite (VtestLaw.lsumR_filter (big omega cell n cutoff)) in T. unfold terms, small_share.
  destruct (filter (big omega cell n cutoff) (seq 0 k)) as [|j l]; [|cbn [length]; lia]. cbn [lsumR] in T.
  destruct (Rle_dec _ _) as [|W]; [lia|]. exfalso. apply W. rewrite Rplus_0_l in T. rewrite T. lra.
Qed.
Lemma no_terms : INR n < cutoff -> terms omega cell k n cutoff = 0%nat /\
  (0 < cutoff -> forall l, chisq_ofA reals (usedA reals Rge_bool cutoff (vtable omega cell k n l)) = 0).
Proof.
  intro N20.
  assert (LT : forall x, 0 <= x -> x <= 1 -> ~ cutoff <= INR n * x).
  { intros x X0 X1 W. pose proof (pos_INR n). assert (INR n * x <= INR n * 1) by (now apply Rmult_le_compat_l). lra. }
  assert (BG : forall l, filter (big omega cell n cutoff) l = []).
  { induction l as [|j l IH]; [reflexivity|]. cbn [filter]. unfold big at 1, Rge_bool. destruct (Rle_dec _ _) as [W|]; [|exact IH].
    exfalso. apply (LT _ (share_nonneg j)) in W; [exact W|]. pose proof (shares_le [j] ltac:(repeat constructor; easy)) as S1. cbn [lsumR] in S1. lra. }
  assert (NS : ~ cutoff <= INR n * small_share omega cell k n cutoff).
  { apply LT; unfold small_share.
    - clear -nonempty. induction (filter _ (seq 0 k)) as [|j l IH]; cbn [lsumR]; [lra|]. pose proof (share_nonneg j). lra.
    - apply shares_le, NoDup_filter, seq_NoDup. }
  split; [unfold terms; rewrite BG; destruct (Rle_dec _ _); [contradiction|reflexivity]|].
  intros P l. rewrite chisq_used by exact P. unfold bigs. rewrite BG. cbn [lsumR]. destruct (Rle_dec _ _); [contradiction|lra].
Qed.
(** all the probability but that of cell 0 is too small to be used *)
Lemma one_term : (forall o, In o omega -> (cell o < k)%nat) -> (0 < k)%nat -> 0 < cutoff -> cutoff <= INR n * cell_share omega cell 0 -> INR n * (1 - cell_share omega cell 0) < cutoff ->
  terms omega cell k n cutoff = 1%nat /\
  forall l, chisq_ofA reals (usedA reals Rge_bool cutoff (vtable omega cell k n l)) = pearson (number_in cell 0 l, INR n * cell_share omega cell 0).
Proof.
  intros C K P B0 B1. destruct k as [|m]; [lia|]. pose proof (all_shares omega cell (S m) nonempty C) as T. cbn [seq lsumR] in T.
  assert (R : forall l, NoDup l -> ~ In 0%nat l -> lsumR l (cell_share omega cell) <= 1 - cell_share omega cell 0).
  { intros l D I. pose proof (shares_le (0%nat :: l) ltac:(now constructor)) as S. cbn [lsumR] in S. lra. }
  assert (LT : forall x, x <= 1 - cell_share omega cell 0 -> ~ cutoff <= INR n * x).
  { intros x X W. pose proof (pos_INR n). assert (INR n * x <= INR n * (1 - cell_share omega cell 0)) by (now apply Rmult_le_compat_l). lra. }
  assert (BG : forall l, ~ In 0%nat l -> filter (big omega cell n cutoff) l = []).
  { induction l as [|j l IH]; intro I; [reflexivity|]. cbn [filter]. unfold big at 1, Rge_bool. destruct (Rle_dec _ _) as [W|]; [|apply IH; intro; apply I; now right].
    exfalso. apply LT in W; [exact W|]. pose proof (R [j] ltac:(repeat constructor; easy) ltac:(intros [->|[]]; apply I; now left)) as S1. cbn [lsumR] in S1. lra. }
  assert (I0 : ~ In 0%nat (seq 1 m)) by (rewrite in_seq; lia).
  assert (BS : filter (big omega cell n cutoff) (seq 0 (S m)) = [0%nat]).
  { cbn [seq filter]. rewrite BG by exact I0. unfold big, Rge_bool. destruct (Rle_dec _ _); [reflexivity|contradiction]. }
  assert (NS : ~ cutoff <= INR n * small_share omega cell (S m) n cutoff).
  { apply LT. unfold small_share. apply R; [apply NoDup_filter, seq_NoDup|]. intro I. apply filter_In in I. destruct I as (_ & I). unfold big, Rge_bool in I. destruct (Rle_dec _ _); [discriminate|contradiction]. }
  split; [unfold terms; rewrite BS; destruct (Rle_dec _ _); [contradiction|reflexivity]|].
  intros l. rewrite chisq_used by exact P. unfold bigs. rewrite BS. cbn [lsumR]. destruct (Rle_dec _ _); [contradiction|]. rewrite !Rplus_0_r. reflexivity.
Qed.
End Terms.

Lemma same_shares {B} (omega : list B) c d k n cutoff : (forall j, In j (seq 0 k) -> cell_share omega c j = cell_share omega d j) ->
  terms omega c k n cutoff = terms omega d k n cutoff /\ left_out omega c k n cutoff = left_out omega d k n cutoff /\
  vtest_variance omega c k n cutoff = vtest_variance omega d k n cutoff.
Proof.
  intro S. assert (BE : forall j, In j (seq 0 k) -> big omega c n cutoff j = big omega d n cutoff j) by (intros j J; unfold big; now rewrite S).
  assert (F1 : filter (big omega c n cutoff) (seq 0 k) = filter (big omega d n cutoff) (seq 0 k)) by (apply filter_ext_in; exact BE).
  assert (SM : small_share omega c k n cutoff = small_share omega d k n cutoff).
  { unfold small_share. rewrite (filter_ext_in _ (fun j => negb (big omega d n cutoff j))) by (intros j J; now rewrite BE). apply lsumR_ext. intros j J. apply filter_In in J. now apply S. }
  assert (VT : terms omega c k n cutoff = terms omega d k n cutoff) by (unfold terms; now rewrite F1, SM).
  assert (VL : left_out omega c k n cutoff = left_out omega d k n cutoff) by (unfold left_out; now rewrite SM).
  split; [exact VT|]. split; [exact VL|]. unfold vtest_variance. rewrite VT, VL.
  replace (term_shares omega c k n cutoff) with (term_shares omega d k n cutoff); [reflexivity|].
  unfold term_shares. rewrite SM, F1. f_equal. apply map_ext_in. intros j J. apply filter_In in J. symmetry. now apply S.
Qed.
