(** The mean and the variance of the statistic of dab_bytedistrib. *)
From Coq Require Import Lia Lra Permutation.
From Verif Require Export BytesSpec.
From Verif Require Import BaseLemmas BitsLemmas OpermReal RunsArcs VtestLaw RankLawLemmas MissingLaw MissingLemmas WindowLaw WordDigits WordCode CountLaw KsReals KernelLaw.
Open Scope R_scope.

(** ** Pearson's statistic with equal shares counts equal pairs *)
Section Pairs.
Variable b : nat.
Variable word : nat -> N.
Hypothesis word_lt : forall t, (word t < N.of_nat b)%N.
Definition meet (s t : nat) : R := b2r (word s =? word t)%N.
Lemma one_cell (v : N) (F : nat -> R) : (v < N.of_nat b)%N -> rsum b (fun k => b2r (v =? N.of_nat k)%N * F k) = F (N.to_nat v).
Proof.
  intro V. assert (G : forall m, (m <= b)%nat -> rsum m (fun k => b2r (v =? N.of_nat k)%N * F k) = if (N.to_nat v <? m)%nat then F (N.to_nat v) else 0).
  { induction m as [|m IH]; intro M; [reflexivity|]. cbn [rsum]. rewrite IH by lia. destruct (N.eqb_spec v (N.of_nat m)) as [->|E].
    - rewrite Nat2N.id. rewrite (proj2 (Nat.ltb_ge m m)), (proj2 (Nat.ltb_lt m (S m))) by lia. unfold b2r. ring.
    - unfold b2r. destruct (Nat.ltb_spec (N.to_nat v) m); destruct (Nat.ltb_spec (N.to_nat v) (S m)); try lia; ring. }
  rewrite G by lia. rewrite (proj2 (Nat.ltb_lt _ _)) by lia. reflexivity.
Qed.
Lemma squares_pairs n : rsum b (fun v => how_often n word v ^ 2) = INR n + 2 * rsum n (fun t => rsum t (fun s => meet s t)).
Proof.
  rewrite (rsum_ext b _ (fun v => rsum n (fun t => b2r (word t =? N.of_nat v)%N) ^ 2)) by (intros; now rewrite often_sum).
  induction n as [|n IH].
  - cbn [rsum]. rewrite (rsum_ext b _ (fun _ => 0)) by (intros; ring). rewrite rsum_zero. cbn [INR]. ring.
  - rewrite (rsum_ext b _ (fun v => rsum n (fun t => b2r (word t =? N.of_nat v)%N) ^ 2 + b2r (word n =? N.of_nat v)%N * (2 * rsum n (fun t => b2r (word t =? N.of_nat v)%N) + 1))).
    + rewrite <- rsum_plus, IH. rewrite (one_cell (word n) (fun v => 2 * rsum n (fun t => b2r (word t =? N.of_nat v)%N) + 1)) by apply word_lt.
      rewrite S_INR. cbn [rsum]. rewrite (rsum_ext n (fun t => b2r (word t =? N.of_nat (N.to_nat (word n)))%N) (fun s => meet s n)) by (intros; unfold meet; now rewrite N2Nat.id). ring.
    + intros v _. cbn [rsum]. assert (Q : b2r (word n =? N.of_nat v)%N ^ 2 = b2r (word n =? N.of_nat v)%N) by (destruct (word n =? N.of_nat v)%N; unfold b2r; ring).
      transitivity (rsum n (fun t => b2r (word t =? N.of_nat v)%N) ^ 2 + 2 * rsum n (fun t => b2r (word t =? N.of_nat v)%N) * b2r (word n =? N.of_nat v)%N + b2r (word n =? N.of_nat v)%N ^ 2); [ring|]. rewrite Q. ring.
Qed.
Lemma often_all n : rsum b (how_often n word) = INR n.
Proof.
  rewrite (rsum_ext b _ (fun v => rsum n (fun t => b2r (word t =? N.of_nat v)%N))) by (intros; apply often_sum).
  rewrite rsum_swap. rewrite (rsum_ext n _ (fun _ => 1)).
  - rewrite rsum_const. ring.
  - intros t _. rewrite <- (one_cell (word t) (fun _ => 1)) by apply word_lt. apply rsum_ext. intros; ring.
Qed.
Lemma triangle n : rsum n (fun t => rsum t (fun _ => 1)) = INR n * (INR n - 1) / 2.
Proof.
  rewrite (rsum_ext n _ INR) by (intros; rewrite rsum_const; ring). induction n as [|n IH]; cbn [rsum]; [cbn [INR]; field|]. rewrite IH, S_INR. field.
Qed.
Lemma pearson_pairs n : (1 <= n)%nat -> (1 <= b)%nat ->
  rsum b (fun v => (how_often n word v - INR n / INR b) ^ 2 / (INR n / INR b)) =
  INR b - 1 + 2 / INR n * rsum n (fun t => rsum t (fun s => INR b * meet s t - 1)).
Proof.
  intros N1 B1. assert (INR n <> 0) by (apply not_0_INR; lia). assert (INR b <> 0) by (apply not_0_INR; lia).
  rewrite (rsum_ext b _ (fun v => (INR b / INR n) * how_often n word v ^ 2 + (- 2) * how_often n word v + INR n / INR b)) by (intros; field; auto).
  rewrite <- !rsum_plus, <- !rsum_scale, squares_pairs, often_all, rsum_const.
  rewrite (rsum_ext n (fun t => rsum t (fun s => INR b * meet s t - 1)) (fun t => INR b * rsum t (fun s => meet s t) + -1 * rsum t (fun _ => 1))).
  - rewrite <- rsum_plus, <- !rsum_scale, triangle. field. auto.
  - intros t _. rewrite !rsum_scale, rsum_plus. apply rsum_ext. intros; ring.
Qed.
End Pairs.

(** ** bits that are all zero *)
Definition no_bit (S : list N) (u : N) : bool := forallb (fun i => negb (N.testbit u i)) S.
Lemma xor_perm w y : (y < 2 ^ w)%N -> Permutation (map (fun x => N.lxor x y) (words w)) (words w).
Proof.
  intro Y. apply inv_perm; [apply words_nodup|]. intros x X. apply in_words in X. split; [apply in_words; now apply lxor_lt|].
  rewrite N.lxor_assoc, N.lxor_nilpotent, N.lxor_0_r. reflexivity.
Qed.
Lemma xor_mean w y F : (y < 2 ^ w)%N -> average (words w) (fun x => F (N.lxor x y)) = average (words w) F.
Proof. intro Y. rewrite <- (average_map (fun x => N.lxor x y)). now apply average_perm, xor_perm. Qed.
Lemma words_ne w : words w <> [].
Proof. intro E. assert (I : In 0%N (words w)) by (apply in_words, N.neq_0_lt_0, N.pow_nonzero; discriminate). rewrite E in I. destruct I. Qed.
Lemma zeros_share w S : NoDup S -> (forall i, In i S -> (i < w)%N) -> average (words w) (fun u => b2r (no_bit S u)) = (1 / 2) ^ length S.
Proof.
  induction S as [|a S IH]; intros ND B; [cbn [no_bit forallb b2r length pow]; apply average_const, words_ne|].
  inversion ND; subst. cbn [length pow]. rewrite <- IH by (auto; intros; apply B; now right).
  assert (A : (2 ^ a < 2 ^ w)%N) by (apply N.pow_lt_mono_r; [lia|apply B; now left]).
  assert (E : forall u, no_bit (a :: S) u = negb (N.testbit u a) && no_bit S u) by reflexivity.
  assert (F : forall u, no_bit (a :: S) (N.lxor u (2 ^ a)) = N.testbit u a && no_bit S u).
  { intro u. rewrite E, N.lxor_spec, N.pow2_bits_true, Bool.xorb_true_r, Bool.negb_involutive. f_equal. unfold no_bit.
    assert (G : forall T, ~ In a T -> forallb (fun i => negb (N.testbit (N.lxor u (2 ^ a)) i)) T = forallb (fun i => negb (N.testbit u i)) T).
    { induction T as [|x T IHT]; intro NI; [reflexivity|]. cbn [forallb]. rewrite IHT by (intro; apply NI; now right). f_equal. rewrite N.lxor_spec, N.pow2_bits_false by (intro; subst; apply NI; now left). now rewrite Bool.xorb_false_r. }
    now apply G. }
  assert (S1 : average (words w) (fun u => b2r (no_bit (a :: S) u)) + average (words w) (fun u => b2r (no_bit (a :: S) u)) = average (words w) (fun u => b2r (no_bit S u))).
  { rewrite <- (xor_mean w (2 ^ a) (fun u => b2r (no_bit (a :: S) u))) at 1 by exact A. rewrite <- average_plus. apply average_ext. intros u _.
    rewrite F, E. destruct (N.testbit u a), (no_bit S u); unfold b2r; cbn [negb andb]; ring. }
  lra.
Qed.
Definition byte_bits (o : N) : list N := map (fun i => (o + N.of_nat i)%N) (seq 0 8).
Lemma byte_zero o u : (field u o 8 =? 0)%N = no_bit (byte_bits o) u.
Proof.
  assert (E : field u o 8 = 0%N <-> no_bit (byte_bits o) u = true).
  { unfold no_bit. rewrite forallb_forall. unfold byte_bits. split.
    - intros Z i I. apply in_map_iff in I. destruct I as (j & <- & J). apply in_seq in J.
      assert (T : N.testbit (field u o 8) (N.of_nat j) = false) by (rewrite Z; apply N.bits_0).
      unfold field in T. rewrite testbit_mod, <- N.shiftr_div_pow2, N.shiftr_spec' in T. rewrite (proj2 (N.ltb_lt _ _)) in T by lia. cbn [andb] in T. rewrite N.add_comm. now rewrite T.
    - intro H. apply N.bits_inj_0. intro i. unfold field. rewrite testbit_mod, <- N.shiftr_div_pow2, N.shiftr_spec'.
      destruct (N.ltb_spec i 8); [|reflexivity]. cbn [andb]. specialize (H (o + i)%N). rewrite Bool.negb_true_iff in H. rewrite N.add_comm. apply H.
      apply in_map_iff. exists (N.to_nat i). split; [lia|]. apply in_seq. lia. }
  destruct (N.eqb_spec (field u o 8) 0) as [Z|Z]; [symmetry; now apply E|]. symmetry. apply Bool.not_true_is_false. intro T. apply Z. now apply E.
Qed.
Lemma field_xor x y o : (field x o 8 =? field y o 8)%N = (field (N.lxor x y) o 8 =? 0)%N.
Proof.
  assert (E : field (N.lxor x y) o 8 = N.lxor (field x o 8) (field y o 8)).
  { apply N.bits_inj. intro i. rewrite N.lxor_spec. unfold field. rewrite !testbit_mod, <- !N.shiftr_div_pow2, !N.shiftr_spec', N.lxor_spec. destruct (i <? 8)%N; [reflexivity|]. reflexivity. }
  rewrite E. destruct (N.eqb_spec (field x o 8) (field y o 8)) as [->|NE]; [now rewrite N.lxor_nilpotent|]. symmetry. apply N.eqb_neq. intro Z. apply N.lxor_eq in Z. contradiction.
Qed.

(** ** the three bytes of a word *)
Section Word.
Variable w : N.
Hypothesis w8 : (8 <= w)%N.
Hypothesis w32 : (w <= 32)%N.
Definition eta (u : N) : R := rsum 3 (fun j => 256 * b2r (field u (byte_offset w j) 8 =? 0)%N - 1).
Definition zeta (x y : N) : R := rsum 3 (fun j => 256 * b2r (field x (byte_offset w j) 8 =? field y (byte_offset w j) 8)%N - 1).
Lemma zeta_eta x y : zeta x y = eta (N.lxor x y).
Proof. unfold zeta, eta. apply rsum_ext. intros j _. now rewrite field_xor. Qed.
Lemma offset_in j : (byte_offset w j + 8 <= w)%N.
Proof. unfold byte_offset. destruct j as [|[|j]]; [lia| |lia]. pose proof (half_le (w - 8)). lia. Qed.
Lemma bits_in_word j i : In i (byte_bits (byte_offset w j)) -> (i < w)%N.
Proof. intro I. apply in_map_iff in I. destruct I as (k & <- & J). apply in_seq in J. pose proof (offset_in j). lia. Qed.
Definition both (i j : nat) : list N := nodup N.eq_dec (byte_bits (byte_offset w i) ++ byte_bits (byte_offset w j)).
Lemma widths (P : N -> bool) : forallb (fun k => P (N.of_nat k)) (seq 8 25) = true -> P w = true.
Proof. intro H. rewrite forallb_forall in H. specialize (H (N.to_nat w)). rewrite N2Nat.id in H. apply H. apply in_seq. lia. Qed.
Lemma both_length i j : (i < 3)%nat -> (j < 3)%nat -> (length (both i j) + shared_bits w i j = 16 /\ shared_bits w i j <= 8)%nat.
Proof.
  intros I J. set (P := fun v => forallb (fun i => forallb (fun j =>
    ((length (nodup N.eq_dec (byte_bits (byte_offset v i) ++ byte_bits (byte_offset v j))) + shared_bits v i j =? 16) && (shared_bits v i j <=? 8))%nat) (seq 0 3)) (seq 0 3)).
  assert (E : P w = true) by (apply widths; vm_compute; reflexivity). unfold P in E.
  rewrite forallb_forall in E. specialize (E i ltac:(apply in_seq; lia)). rewrite forallb_forall in E. specialize (E j ltac:(apply in_seq; lia)).
  apply andb_prop in E. destruct E as (E1 & E2). apply Nat.eqb_eq in E1. apply Nat.leb_le in E2. split; assumption.
Qed.
Lemma no_bit_app S T u : no_bit S u && no_bit T u = no_bit (S ++ T) u.
Proof. unfold no_bit. now rewrite forallb_app. Qed.
Lemma no_bit_nodup S u : no_bit (nodup N.eq_dec S) u = no_bit S u.
Proof.
  unfold no_bit. apply Bool.eq_true_iff_eq. rewrite !forallb_forall. split; intros H i I; apply H; [now apply nodup_In|now apply nodup_In in I].
Qed.
Lemma both_share i j : (i < 3)%nat -> (j < 3)%nat ->
  average (words w) (fun u => b2r (field u (byte_offset w i) 8 =? 0)%N * b2r (field u (byte_offset w j) 8 =? 0)%N) = 2 ^ shared_bits w i j / 65536.
Proof.
  intros I J. rewrite (average_ext _ _ (fun u => b2r (no_bit (both i j) u))).
  - rewrite zeros_share; [|apply NoDup_nodup|].
    + destruct (both_length i j I J) as (E & LE). replace (length (both i j)) with (16 - shared_bits w i j)%nat by lia.
      assert (P : (1 / 2) ^ (16 - shared_bits w i j) * (1 / 2) ^ shared_bits w i j = / 65536).
      { rewrite <- pow_add. replace (16 - shared_bits w i j + shared_bits w i j)%nat with 16%nat by lia. cbn [pow]. lra. }
      assert (Q : (1 / 2) ^ shared_bits w i j * 2 ^ shared_bits w i j = 1) by (rewrite <- Rpow_mult_distr; replace (1 / 2 * 2) with 1 by lra; apply pow1).
      transitivity ((1 / 2) ^ (16 - shared_bits w i j) * ((1 / 2) ^ shared_bits w i j * 2 ^ shared_bits w i j)); [rewrite Q; ring|].
      rewrite <- Rmult_assoc, P. unfold Rdiv. ring.
    + intros k Hk. apply nodup_In in Hk. apply in_app_or in Hk. destruct Hk as [Hk|Hk]; eapply bits_in_word; exact Hk.
  - intros u _. unfold both. rewrite no_bit_nodup, <- no_bit_app, <- !byte_zero. now rewrite b2r_and.
Qed.
Lemma self_shared i : shared_bits w i i = 8%nat.
Proof. unfold shared_bits. rewrite N.max_id, N.min_id, N.sub_diag. reflexivity. Qed.
Lemma one_share i : (i < 3)%nat -> average (words w) (fun u => b2r (field u (byte_offset w i) 8 =? 0)%N) = 1 / 256.
Proof.
  intro I. rewrite (average_ext _ _ (fun u => b2r (field u (byte_offset w i) 8 =? 0)%N * b2r (field u (byte_offset w i) 8 =? 0)%N)).
  - rewrite both_share, self_shared by assumption. cbn [pow]. lra.
  - intros u _. destruct (field u (byte_offset w i) 8 =? 0)%N; unfold b2r; ring.
Qed.
Lemma eta_mean : average (words w) eta = 0.
Proof.
  unfold eta. rewrite average_rsum, (rsum_ext 3 _ (fun _ => 0)); [apply rsum_zero|].
  intros j J. rewrite average_minus, average_scale, average_const, one_share by (exact J || apply words_ne). lra.
Qed.
Lemma eta_square : average (words w) (fun u => eta u ^ 2) = rsum 3 (fun i => rsum 3 (fun j => 2 ^ shared_bits w i j - 1)).
Proof.
  rewrite (average_ext _ _ (fun u => rsum 3 (fun i => rsum 3 (fun j =>
    (65536 * (b2r (field u (byte_offset w i) 8 =? 0)%N * b2r (field u (byte_offset w j) 8 =? 0)%N) - 256 * b2r (field u (byte_offset w i) 8 =? 0)%N)
     - (256 * b2r (field u (byte_offset w j) 8 =? 0)%N - 1))))) by (intros; unfold eta; cbn [rsum]; ring).
  rewrite average_rsum. apply rsum_ext. intros i I. rewrite average_rsum. apply rsum_ext. intros j J.
  rewrite !average_minus, !average_scale, average_const, both_share, !one_share by (assumption || apply words_ne). lra.
Qed.
Lemma zeta_mean1 y : In y (words w) -> average (words w) (fun x => zeta x y) = 0.
Proof.
  intro Y. apply in_words in Y. rewrite (average_ext _ _ (fun x => eta (N.lxor x y))) by (intros; apply zeta_eta). rewrite xor_mean by exact Y. apply eta_mean.
Qed.
Lemma zeta_mean2 x : In x (words w) -> average (words w) (fun y => zeta x y) = 0.
Proof.
  intro X. apply in_words in X. rewrite (average_ext _ _ (fun y => eta (N.lxor y x))) by (intros; rewrite N.lxor_comm; apply zeta_eta). rewrite xor_mean by exact X. apply eta_mean.
Qed.
Lemma zeta_square : average (words w) (fun y => average (words w) (fun x => zeta x y ^ 2)) = rsum 3 (fun i => rsum 3 (fun j => 2 ^ shared_bits w i j - 1)).
Proof.
  rewrite (average_ext _ _ (fun _ => rsum 3 (fun i => rsum 3 (fun j => 2 ^ shared_bits w i j - 1)))).
  - apply average_const, words_ne.
  - intros y Y. apply in_words in Y. rewrite (average_ext _ _ (fun x => (fun u => eta u ^ 2) (N.lxor x y))) by (intros; now rewrite zeta_eta).
    rewrite (xor_mean w y (fun u => eta u ^ 2)) by exact Y. apply eta_square.
Qed.
End Word.
