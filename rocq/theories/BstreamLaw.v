(** The mean of the number of 20-bit words that do not occur among the
    overlapping words of a stream of bits. *)
From Coq Require Import Lia Lra.
From Verif Require Export WordSpec MissingLawSpec.
From Verif Require Import BaseLemmas BitsLemmas TallyLemmas OpermReal DnaBlock RunsArcs CrapsLaw CrapsLaw2 VtestLaw RankLawLemmas MissingLaw MissingLaw2 WindowLaw WordDigits WordCode CountLaw SerialLaw WindowSplit.
Open Scope R_scope.

Section Stream.
(** M results of 32 bits; words of m bits, the first at bit o *)
Variables M o m : nat.
Let all := matrices 32 M.
Let bit (p : nat) (l : list N) : N := digit_at 1 m_idx m_loc p l.
Let flip := change 32 1 m_idx m_loc.
Let bs := words (N.of_nat 1).
Definition sword (t : nat) (l : list N) : N := code 2 (map (fun r => bit (o + t + r) l) (seq 0 m)).
Let D := N.of_nat m.
Let Q := IZR (2 ^ Z.of_nat m).

Lemma Q_pos : 0 < Q.
Proof. unfold Q. apply IZR_lt. apply Z.pow_pos_nonneg; lia. Qed.
Lemma Q_pow : Q = 2 ^ m.
Proof. unfold Q. rewrite pow_IZR. reflexivity. Qed.
Lemma bit_lt p l : (bit p l < 2)%N.
Proof. unfold bit, digit_at, digit_of. pose proof (number_of_bits_lt (fun j => N.testbit (nth (m_idx p) l 0%N) (m_loc p j)) 1) as H. exact H. Qed.
Lemma sword_lt t l : (sword t l < 2 ^ D)%N.
Proof.
  unfold sword, D. pose proof (code_lt 2 (map (fun r => bit (o + t + r) l) (seq 0 m))) as H. rewrite map_length, seq_length in H. apply H.
  intros y Y. apply in_map_iff in Y. destruct Y as (r & <- & _). apply bit_lt.
Qed.
Lemma code_onto x : (x < 2 ^ D)%N -> exists u, length u = m /\ (forall y, In y u -> (y < 2)%N) /\ code 2 u = x.
Proof.
  unfold D. clear D Q bs flip bit all. revert x. induction m as [|k IH]; intros x H; [exists []; cbn in H; split; [reflexivity|]; split; [intros y []|]; unfold code; cbn; lia|].
  rewrite Nat2N.inj_succ, N.pow_succ_r' in H. destruct (IH (x / 2)%N) as (u & Lu & Bu & C).
  - apply N.div_lt_upper_bound; lia.
  - exists (u ++ [x mod 2])%N. rewrite app_length, Lu. split; [cbn; lia|]. split.
    + intros y Y. apply in_app_or in Y. destruct Y as [Y|[<-|[]]]; [now apply Bu|]. apply N.mod_upper_bound. discriminate.
    + rewrite code_snoc, C. pose proof (N.div_mod x 2). lia.
Qed.
(** what the bits from q on do not change *)
Definition early (q : nat) (G : list N -> R) : Prop :=
  forall p b l, (q <= p < 32 * M)%nat -> In b bs -> In l all -> G (flip p b l) = G l.
Lemma bit_early p q : (p < q)%nat -> (q <= 32 * M)%nat -> forall r b l, (q <= r < 32 * M)%nat -> In b bs -> In l all -> bit p (flip r b l) = bit p l.
Proof.
  intros P HQ r b l R B Al. destruct (m_ok M) as (P1 & P2 & P3). apply (d_other 32 M (32 * M) 1 m_idx m_loc P1 P2 P3 r p b l); auto; lia.
Qed.
Lemma sword_early t q : (o + t + m <= q)%nat -> (q <= 32 * M)%nat -> forall r b l, (q <= r < 32 * M)%nat -> In b bs -> In l all -> sword t (flip r b l) = sword t l.
Proof.
  intros T HQ r b l R B Al. unfold sword. f_equal. apply map_ext_in. intros i I. apply in_seq in I. apply (bit_early _ q); auto; lia.
Qed.
Lemma split_stream G t x : (o + t + m <= 32 * M)%nat -> early (o + t) G -> (x < 2 ^ D)%N ->
  average all (fun l => G l * b2r (sword t l =? x)%N) = average all G / Q.
Proof.
  intros T A Hx. destruct (code_onto x Hx) as (u & Lu & Bu & C). destruct (m_ok M) as (P1 & P2 & P3).
  pose proof (split_digits all (32 * M) bs bit flip (b_ne 1) (d_perm 32 M (32 * M) 1 m_idx m_loc P1 P2 P3) (d_other 32 M (32 * M) 1 m_idx m_loc P1 P2 P3) (d_same 32 M (32 * M) 1 m_idx m_loc P1 P2 P3)
    (fun r => (o + t + r)%nat) G u) as S. cbn zeta in S. rewrite Lu in S.
  assert (S' : average all (fun l => G l * same_word (digits bit (fun r => (o + t + r)%nat) m l) u) = average all G * chance bs (fun x => x) u).
  { apply S; intros; try lia. intros b l B Al. apply A; auto. lia. }
  unfold bs in S'. rewrite half_chance in S' by exact Bu. rewrite Lu in S'. transitivity (average all G * (/ 2) ^ m).
  - rewrite <- S'. apply average_ext. intros l _. f_equal. unfold same_word, b2r, sword, digits.
    destruct (list_eq_dec N.eq_dec _ u) as [E|E]; destruct (N.eqb_spec (code 2 (map (fun r => bit (o + t + r) l) (seq 0 m))) x) as [F|F]; try reflexivity; exfalso.
    + apply F. now rewrite E.
    + apply E. apply (code_inj 2); [now rewrite map_length, seq_length| |exact Bu|now rewrite F, C]. intros y Y. apply in_map_iff in Y. destruct Y as (r & <- & _). apply bit_lt.
  - rewrite Q_pow, pow_inv. reflexivity.
Qed.
Lemma split_phi G t phi : (o + t + m <= 32 * M)%nat -> early (o + t) G ->
  average all (fun l => G l * phi (sword t l)) = average all G * (lsumR (words D) phi / Q).
Proof.
  intros T A. rewrite (average_ext all _ (fun l => lsumR (words D) (fun x => phi x * (G l * b2r (sword t l =? x)%N)))).
  - rewrite average_lsumR. rewrite (lsumR_ext _ _ (fun x => average all G / Q * phi x)).
    + rewrite lsumR_scale. unfold Rdiv. ring.
    + intros x Hx. apply in_words in Hx. rewrite average_scale, split_stream by assumption. ring.
  - intros l Al. rewrite (lsumR_ext _ _ (fun x => G l * (b2r (sword t l =? x)%N * phi x))) by (intros; ring). rewrite lsumR_scale. f_equal. symmetry.
    apply (one_letter (words D) (sword t l) phi); [apply words_nodup|apply in_words, sword_lt].
Qed.

(** ** words that do not overlap *)
Lemma rprod_last n f : rprod (S n) f = rprod n f * f n.
Proof. rewrite <- Nat.add_1_r, rprod_app. cbn [rprod]. rewrite Nat.add_0_r. ring. Qed.
Lemma disjoint_product phi c K : (o + c + m * K <= 32 * M)%nat ->
  average all (fun l => rprod K (fun i => phi (sword (c + m * i) l))) = (lsumR (words D) phi / Q) ^ K.
Proof.
  induction K as [|K IH]; intro H.
  - cbn [rprod pow]. apply average_const. apply d_ne.
  - rewrite (average_ext all _ (fun l => rprod K (fun i => phi (sword (c + m * i) l)) * phi (sword (c + m * K) l))) by (intros; apply rprod_last).
    rewrite (split_phi (fun l => rprod K (fun i => phi (sword (c + m * i) l)))).
    + rewrite IH by lia. cbn [pow]. ring.
    + lia.
    + intros p b l P B Al. apply rprod_ext. intros i I. f_equal. apply (sword_early _ (o + (c + m * K))); auto; nia.
Qed.

(** ** two words *)
Lemma two_words i j : (i < j)%nat -> (o + j + m <= 32 * M)%nat -> average all (fun l => b2r (sword i l =? sword j l)%N) = 1 / Q.
Proof.
  intros I J. destruct (m_ok M) as (P1 & P2 & P3). set (pos := fun t r => (o + t + r)%nat).
  assert (E : average all (fun l => same_word (word bit (fun x => x) m pos i l) (word bit (fun x => x) m pos j l) / chance bs (fun x => x) (word bit (fun x => x) m pos j l)) = 1).
  { apply (meets all (32 * M) bs bit flip (d_ne 32 M) (b_ne 1) (d_perm 32 M (32 * M) 1 m_idx m_loc P1 P2 P3) (d_other 32 M (32 * M) 1 m_idx m_loc P1 P2 P3) (d_same 32 M (32 * M) 1 m_idx m_loc P1 P2 P3)
      (d_digit 32 M (32 * M) 1 m_idx m_loc) (fun x => x) bs (fun b B => B) (fun y Y => ex_intro _ y (conj Y eq_refl)) (S j) m pos); unfold pos, ahead; try (intros; lia).
    intros a b A B NE. destruct (Nat.lt_ge_cases a b); [left|right]; intros; lia. }
  assert (EQ : forall l, same_word (word bit (fun x => x) m pos i l) (word bit (fun x => x) m pos j l) / chance bs (fun x => x) (word bit (fun x => x) m pos j l) = Q * b2r (sword i l =? sword j l)%N).
  { intro l. unfold word, word_upto. assert (BB : forall t y, In y (map (fun r => bit (pos t r) l) (seq 0 m)) -> (y < 2)%N).
    { intros t y Y. apply in_map_iff in Y. destruct Y as (r & <- & _). apply bit_lt. }
    unfold bs. rewrite half_chance by (apply BB). rewrite map_length, seq_length, pow_inv, <- Q_pow. unfold Rdiv. rewrite Rinv_inv, Rmult_comm. f_equal.
    unfold same_word, b2r, sword. fold (pos i). destruct (list_eq_dec N.eq_dec _ _) as [F|F]; destruct (N.eqb_spec (code 2 (map (fun r => bit (o + i + r) l) (seq 0 m))) (code 2 (map (fun r => bit (o + j + r) l) (seq 0 m)))) as [C|C]; try reflexivity; exfalso.
    - apply C. unfold pos in F. now rewrite F.
    - apply F. apply (code_inj 2); [now rewrite !map_length, !seq_length|apply BB|apply BB|exact C]. }
  rewrite (average_ext all _ _ (fun l _ => EQ l)) in E. rewrite average_scale in E. pose proof Q_pos. apply (Rmult_eq_reg_l Q); [|lra]. rewrite E. field. lra.
Qed.

(** ** the words not seen *)
Definition unseen (n : nat) (l : list N) : R := lsumR (words D) (absent n (fun t => sword t l)).
Definition mean_unseen (n : nat) : R := average all (unseen n).
Lemma absent_01 n word x : 0 <= absent n word x <= 1.
Proof. rewrite absent_in. destruct (in_dec _ _ _); lra. Qed.
Lemma absent_S n word x : absent (S n) word x = absent n word x * MissingLaw2.other x (word n).
Proof. unfold absent. apply rprod_last. Qed.
Lemma unseen_step n l : unseen n l - unseen (S n) l = absent n (fun t => sword t l) (sword n l).
Proof.
  unfold unseen. set (f := absent n (fun t => sword t l)).
  rewrite (lsumR_ext (words D) (absent (S n) _) (fun x => f x + -1 * (b2r (sword n l =? x)%N * f x))).
  - rewrite lsumR_plus, lsumR_scale. rewrite (one_letter (words D) (sword n l) f); [ring|apply words_nodup|apply in_words, sword_lt].
  - intros x _. rewrite absent_S. fold f. unfold MissingLaw2.other, b2r. destruct (_ =? _)%N; ring.
Qed.
Lemma unseen_0 l : unseen 0 l = Q.
Proof. unfold unseen, absent. cbn [rprod]. rewrite lsumR_const, words_len. unfold D, Q. rewrite nat_N_Z. ring. Qed.
Lemma absent_early s t x : (s + m <= t + 1 \/ s = 0)%nat -> (o + t <= 32 * M)%nat -> early (o + t) (fun l => absent s (fun i => sword i l) x).
Proof.
  intros H HT p b l P B Al. unfold absent. apply rprod_ext. intros i I. f_equal. apply (sword_early i (o + t)); auto; lia.
Qed.
Lemma fresh_mean s t : (s + m <= t + 1 \/ s = 0)%nat -> (o + t + m <= 32 * M)%nat -> average all (fun l => absent s (fun i => sword i l) (sword t l)) = mean_unseen s / Q.
Proof.
  intros H HT. rewrite (average_ext all _ (fun l => lsumR (words D) (fun x => absent s (fun i => sword i l) x * b2r (sword t l =? x)%N))).
  - rewrite average_lsumR. unfold mean_unseen, unseen. rewrite average_lsumR. rewrite (lsumR_ext _ _ (fun x => / Q * average all (fun l => absent s (fun i => sword i l) x))).
    + rewrite lsumR_scale. unfold Rdiv. ring.
    + intros x Hx. apply in_words in Hx. rewrite (split_stream (fun l => absent s (fun i => sword i l) x)) by (auto; apply absent_early; auto; lia). unfold Rdiv. ring.
  - intros l Al. rewrite (lsumR_ext _ _ (fun x => b2r (sword t l =? x)%N * absent s (fun i => sword i l) x)) by (intros; ring). symmetry.
    apply (one_letter (words D) (sword t l) (absent s (fun i => sword i l))); [apply words_nodup|apply in_words, sword_lt].
Qed.
Lemma absent_le s t word x : (s <= t)%nat -> absent t word x <= absent s word x.
Proof.
  intro H. induction H as [|t H IH]; [lra|]. rewrite absent_S. pose proof (absent_01 t word x). unfold MissingLaw2.other. destruct (_ =? _)%N; lra.
Qed.
Lemma absent_ge s k word x : absent s word x - rsum k (fun d => b2r (word (s + d)%nat =? x)%N) <= absent (s + k) word x.
Proof.
  induction k as [|k IH]; [rewrite Nat.add_0_r; cbn [rsum]; lra|]. rewrite Nat.add_succ_r, absent_S. cbn [rsum]. pose proof (absent_01 (s + k) word x) as A.
  unfold MissingLaw2.other. unfold b2r at 1 in IH. unfold b2r at 1 2. unfold b2r in IH. destruct (word (s + k)%nat =? x)%N; lra.
Qed.
Lemma average_le (f g : list N -> R) : (forall l, In l all -> f l <= g l) -> average all f <= average all g.
Proof.
  intro H. assert (Z : 0 <= average all (fun l => g l - f l)).
  { unfold average. apply Rmult_le_pos; [|left; apply Rinv_0_lt_compat, lt_0_INR; pose proof (d_ne 32 M) as E; unfold all; destruct (matrices 32 M); [congruence|cbn; lia]].
    clear - H. induction all as [|x l IH]; [cbn; lra|]. cbn [lsumR]. pose proof (H x (or_introl eq_refl)). specialize (IH (fun y Y => H y (or_intror Y))). lra. }
  rewrite average_minus in Z. lra.
Qed.
Hypothesis m_pos : (1 <= m)%nat.
Lemma mean_step n : (o + n + m <= 32 * M)%nat -> let s := (n - (m - 1))%nat in
  (mean_unseen s - INR (m - 1)) / Q <= mean_unseen n - mean_unseen (S n) <= mean_unseen s / Q.
Proof.
  intros H s. assert (Hs : (s + m <= n + 1 \/ s = 0)%nat) by (unfold s; lia). 
  assert (EN : mean_unseen n - mean_unseen (S n) = average all (fun l => absent n (fun t => sword t l) (sword n l))).
  { unfold mean_unseen. rewrite <- average_minus. apply average_ext. intros; apply unseen_step. }
  rewrite EN. clear EN. rewrite <- (fresh_mean s n Hs H). split.
  - pose proof Q_pos as QP. apply Rle_trans with (average all (fun l => absent s (fun i => sword i l) (sword n l) - rsum (n - s) (fun d => b2r (sword (s + d) l =? sword n l)%N))).
    + rewrite average_minus, fresh_mean by assumption. rewrite average_rsum. rewrite (rsum_ext (n - s) _ (fun _ => 1 / Q)) by (intros d Hd; apply two_words; lia).
      rewrite rsum_const. assert (INR (n - s) <= INR (m - 1)) by (apply le_INR; unfold s; lia). unfold Rdiv. pose proof (Rinv_0_lt_compat Q QP). nra.
    + apply average_le. intros l _. pose proof (absent_ge s (n - s) (fun t => sword t l) (sword n l)) as G. replace (s + (n - s))%nat with n in G by (unfold s; lia). exact G.
  - apply average_le. intros l _. apply absent_le. unfold s. lia.
Qed.
Lemma mean_0 : mean_unseen 0 = Q.
Proof. unfold mean_unseen. rewrite (average_ext all _ (fun _ => Q)) by (intros; apply unseen_0). apply average_const. apply d_ne. Qed.
Lemma mean_dec a b : (a <= b)%nat -> mean_unseen b <= mean_unseen a.
Proof.
  intro H. apply average_le. intros l _. unfold unseen. induction H as [|b H IH]; [lra|]. pose proof (unseen_step b l) as U. unfold unseen in U. pose proof (absent_01 b (fun t => sword t l) (sword b l)). lra.
Qed.
Lemma mean_slow a k : (o + a + k + m <= 32 * M + 1)%nat -> mean_unseen a <= mean_unseen (a + k) + INR k.
Proof.
  induction k as [|k IH]; intro H; [rewrite Nat.add_0_r; cbn; lra|]. specialize (IH ltac:(lia)). rewrite Nat.add_succ_r, S_INR.
  pose proof (mean_step (a + k) ltac:(lia)) as (_ & S). cbn zeta in S. pose proof (mean_dec 0 (a + k - (m - 1)) ltac:(lia)) as E. rewrite mean_0 in E. pose proof Q_pos.
  assert (mean_unseen (a + k - (m - 1)) / Q <= 1). { apply (Rmult_le_reg_r Q); [lra|]. unfold Rdiv. rewrite Rmult_assoc, Rinv_l by lra. lra. }
  lra.
Qed.
Theorem mean_bounds n : (o + n + m <= 32 * M + 1)%nat -> 1 <= Q ->
  Rabs (mean_unseen n - Q * (1 - 1 / Q) ^ n) <= INR (m - 1) * (1 - (1 - 1 / Q) ^ n).
Proof.
  intros H Q1. pose proof Q_pos as QP. set (c := INR (m - 1)). set (a := 1 - 1 / Q).
  assert (A : 0 <= a). { unfold a. assert (1 / Q <= 1); [|lra]. apply (Rmult_le_reg_r Q); [lra|]. unfold Rdiv. rewrite Rmult_assoc, Rinv_l by lra. lra. }
  assert (G : forall k, (o + k + m <= 32 * M + 1)%nat -> (Q + c) * a ^ k <= mean_unseen k + c /\ mean_unseen k - c <= (Q - c) * a ^ k).
  { induction k as [|k IH]; intro K; [rewrite mean_0; cbn [pow]; lra|]. destruct (IH ltac:(lia)) as (I1 & I2). pose proof (mean_step k ltac:(lia)) as (S1 & S2). cbn zeta in S1, S2. fold c in S1.
    set (s := (k - (m - 1))%nat) in *. pose proof (mean_dec s k ltac:(unfold s; lia)) as E. pose proof (mean_slow s (k - s) ltac:(unfold s; lia)) as F.
    replace (s + (k - s))%nat with k in F by (unfold s; lia). assert (INR (k - s) <= c) by (apply le_INR; unfold s; lia). cbn [pow].
    assert (QI : 0 < / Q) by (now apply Rinv_0_lt_compat). split.
    - apply Rle_trans with (a * (mean_unseen k + c)); [replace ((Q + c) * (a * a ^ k)) with (a * ((Q + c) * a ^ k)) by ring; now apply Rmult_le_compat_l|].
      unfold a, Rdiv in *. nra.
    - apply Rle_trans with (a * (mean_unseen k - c)); [|replace ((Q - c) * (a * a ^ k)) with (a * ((Q - c) * a ^ k)) by ring; now apply Rmult_le_compat_l].
      unfold a, Rdiv in *. nra. }
  destruct (G n H) as (G1 & G2). apply Rabs_le. split; nra.
Qed.
End Stream.
