(** Bounds of the mean and of the variance of the number of words that the DNA
    test misses. *)
From Coq Require Import Lia Lra Psatz.
From Verif Require Import MissingNumbers.
From Verif Require Export DnaLaw.
Open Scope R_scope.

Notation ch := (chain eqL).
Notation sm := (same eqL).
Definition loop (x : list N * list N) : R := ch x x.

Lemma letters_ne : letters <> [].
Proof. intro E. pose proof letters_len as L. rewrite E in L. cbn in L. lra. Qed.
Lemma letters_nodup : NoDup letters.
Proof. apply matrices_nodup. Qed.
Lemma ch01 x y : 0 <= ch x y <= 1.
Proof. unfold chain, DnaBlock.delta. destruct (eqL _ _); lra. Qed.
Lemma sm01 x y : sm x y = 0 \/ (sm x y = 1 /\ x = y).
Proof.
  unfold same, DnaBlock.delta. destruct x as (a & b), y as (c & d). cbn [fst snd]. destruct (eqL a c) as [->|], (eqL b d) as [->|]; try (left; ring). right. split; [ring|reflexivity].
Qed.
Lemma c32 : INR 32 = 32.
Proof. rewrite INR_IZR_INZ. reflexivity. Qed.
Lemma second_eq x y : second eqL letters 32 x y = (ch x y + ch y x) / 2 ^ 25 + 928 / 2 ^ 40.
Proof. unfold second. cbv zeta. rewrite letters_len, c32. field. Qed.
Lemma pone_low x : isin letters x -> 1 - / 2 ^ 15 <= pone x.
Proof.
  intro X. pose proof (pmiss_low eqL letters [] 32 letters_nodup letters_ne ltac:(lia) x X) as H. rewrite letters_len, c32 in H.
  replace (32 / 1024 ^ 2) with (/ 2 ^ 15) in H by field. exact H.
Qed.
Lemma pone_high x : isin letters x -> pone x <= 1 - / 2 ^ 15 + (loop x / 2 ^ 25 + 464 / 2 ^ 40).
Proof.
  intro X. pose proof (pmiss_high eqL letters [] 32 letters_nodup letters_ne ltac:(lia) x X) as H. rewrite letters_len, c32, second_eq in H.
  replace (32 / 1024 ^ 2) with (/ 2 ^ 15) in H by field. unfold loop. lra.
Qed.
Lemma ptwo_high x y : isin letters x -> isin letters y -> sm x y = 0 -> ptwo x y <= pone x + pone y - 1 + ((ch x y + ch y x) / 2 ^ 25 + 928 / 2 ^ 40).
Proof.
  intros X Y S0. pose proof (pmiss2_high eqL letters [] 32 letters_nodup letters_ne ltac:(lia) x y X Y S0) as H. now rewrite second_eq in H.
Qed.
Lemma ptwo_0 x y : 0 <= ptwo x y.
Proof. exact (proj1 (pmiss2_01 eqL letters [] 32 letters_nodup letters_ne ltac:(lia) x y)). Qed.
Lemma ptwo_diag x : ptwo x x = pone x.
Proof. unfold pmiss2, pmiss. apply Ex_ext. intros c _. apply missed_idem. Qed.

(** ** powers *)
Lemma pow_gap J a b m : 0 <= a -> a <= b -> b <= m -> b ^ S J - a ^ S J <= INR (S J) * (b - a) * m ^ J.
Proof.
  intros A AB BM. induction J as [|J IH]; [cbn [pow INR]; lra|]. rewrite S_INR.
  assert (P : a ^ S J <= m ^ S J) by (apply pow_incr; lra).
  assert (Q : 0 <= b ^ S J - a ^ S J) by (pose proof (pow_incr a b (S J)); lra).
  replace (b ^ S (S J) - a ^ S (S J)) with (b * (b ^ S J - a ^ S J) + (b - a) * a ^ S J) by (cbn [pow]; ring).
  replace ((INR (S J) + 1) * (b - a) * m ^ S J) with (m * (INR (S J) * (b - a) * m ^ J) + (b - a) * m ^ S J) by (cbn [pow]; ring).
  apply Rplus_le_compat; [apply Rmult_le_compat; lra|apply Rmult_le_compat_l; lra].
Qed.
Lemma pow_gap_low J a b m : 0 <= m -> m <= a -> a <= b -> INR (S J) * (b - a) * m ^ J <= b ^ S J - a ^ S J.
Proof.
  intros M MA AB. induction J as [|J IH]; [cbn [pow INR]; lra|]. rewrite S_INR.
  assert (P : m ^ S J <= a ^ S J) by (apply pow_incr; lra).
  assert (Q : 0 <= INR (S J) * (b - a) * m ^ J).
  { apply Rmult_le_pos; [apply Rmult_le_pos; [apply pos_INR|lra]|apply pow_le; lra]. }
  replace (b ^ S (S J) - a ^ S (S J)) with (b * (b ^ S J - a ^ S J) + (b - a) * a ^ S J) by (cbn [pow]; ring).
  replace ((INR (S J) + 1) * (b - a) * m ^ S J) with (m * (INR (S J) * (b - a) * m ^ J) + (b - a) * m ^ S J) by (cbn [pow]; ring).
  apply Rplus_le_compat; [apply Rmult_le_compat; lra|apply Rmult_le_compat_l; lra].
Qed.

(** ** one pair of words *)
Definition base0 : R := 1 - / 2 ^ 14.
Definition base1 : R := 1 - 255 / 2 ^ 22.
Definition one0 : R := 1 - / 2 ^ 15.
Definition one1 : R := 1 - 511 / 2 ^ 24.
Definition gamma : R := (96 - 928 / 2 ^ 15) / 2 ^ 40.
Definition extra (x y : list N * list N) : R := (ch x y + ch y x) / 2 ^ 25 + (loop x + loop y) / 2 ^ 40.
Lemma different_pair J x y : isin letters x -> isin letters y -> sm x y = 0 ->
  ptwo x y ^ S J - pone x ^ S J * pone y ^ S J <= INR (S J) * extra x y * base1 ^ J - INR (S J) * gamma * base0 ^ J.
Proof.
  intros X Y S0. pose proof (ptwo_high x y X Y S0) as H. pose proof (ptwo_0 x y) as S1. pose proof (pone_low x X) as X1. pose proof (pone_low y Y) as Y1.
  pose proof (pone_high x X) as X2. pose proof (pone_high y Y) as Y2. rewrite <- Rpow_mult_distr. unfold extra.
  assert (LX : 0 <= loop x <= 1) by apply ch01. assert (LY : 0 <= loop y <= 1) by apply ch01. pose proof (ch01 x y) as C1. pose proof (ch01 y x) as C2.
  set (s := ptwo x y) in *. set (p := pone x) in *. set (p' := pone y) in *. set (c := ch x y) in *. set (c' := ch y x) in *. set (lx := loop x) in *. set (ly := loop y) in *.
  clearbody s p p' c c' lx ly.
  set (P := (c + c') / 2 ^ 25 + (lx + ly) / 2 ^ 40). set (r := p * p'). set (t := r - gamma).
  assert (P0 : 0 <= P) by (unfold P; lra).
  set (a := p - (1 - / 2 ^ 15)) in *. set (a' := p' - (1 - / 2 ^ 15)) in *.
  assert (Ha : 0 <= a <= lx / 2 ^ 25 + 464 / 2 ^ 40) by (unfold a; lra). assert (Ha' : 0 <= a' <= ly / 2 ^ 25 + 464 / 2 ^ 40) by (unfold a'; lra).
  assert (Ep : p = 1 - / 2 ^ 15 + a) by (unfold a; lra). assert (Ep' : p' = 1 - / 2 ^ 15 + a') by (unfold a'; lra). clearbody a a'.
  assert (Er : r = (1 - / 2 ^ 15) ^ 2 + (1 - / 2 ^ 15) * (a + a') + a * a') by (unfold r; rewrite Ep, Ep'; ring).
  assert (AA : 0 <= a * a') by (apply Rmult_le_pos; lra). assert (AA2 : a * a' <= / 2 ^ 24 * a') by (apply Rmult_le_compat_r; lra).
  assert (Hs : s <= t + P). { unfold t, gamma, P. rewrite Er. rewrite Ep, Ep' in H. lra. }
  assert (Ht : base0 <= t) by (unfold t, base0, gamma; rewrite Er; lra).
  assert (Hm : t + P <= base1) by (unfold t, base1, gamma, P; rewrite Er; lra).
  assert (B0 : 0 <= base0) by (unfold base0; lra).
  pose proof (pow_gap J t (t + P) base1 ltac:(lra) ltac:(lra) Hm) as G1. replace (t + P - t) with P in G1 by ring.
  assert (T : t <= r) by (unfold t, gamma; lra).
  pose proof (pow_gap_low J t r base0 B0 Ht T) as G2. replace (r - t) with gamma in G2 by (unfold t; ring).
  assert (HS : s ^ S J <= (t + P) ^ S J) by (apply pow_incr; lra). fold r. lra.
Qed.
Lemma same_pair K x : isin letters x -> ptwo x x ^ K - pone x ^ K * pone x ^ K <= one1 ^ K - one0 ^ K * one0 ^ K.
Proof.
  intro X. rewrite ptwo_diag. pose proof (pone_low x X) as X1. pose proof (pone_high x X) as X2. assert (LX : 0 <= loop x <= 1) by apply ch01.
  assert (A : one0 ^ K <= pone x ^ K) by (apply pow_incr; unfold one0; lra). assert (B : pone x ^ K <= one1 ^ K) by (apply pow_incr; unfold one1; lra).
  assert (C : 0 <= one0 ^ K) by (apply pow_le; unfold one0; lra). apply Rplus_le_compat; [exact B|]. apply Ropp_le_contravar. apply Rmult_le_compat; lra.
Qed.
Definition diagonal (J : nat) : R := one1 ^ S J - one0 ^ S J * one0 ^ S J + INR (S J) * gamma * base0 ^ J.
Lemma any_pair J x y : isin letters x -> isin letters y ->
  ptwo x y ^ S J - pone x ^ S J * pone y ^ S J <= - (INR (S J) * gamma * base0 ^ J) + (INR (S J) * base1 ^ J * extra x y + diagonal J * sm x y).
Proof.
  intros X Y. destruct (sm01 x y) as [E|(E & ->)]; rewrite E.
  - pose proof (different_pair J x y X Y E). lra.
  - pose proof (same_pair (S J) y X) as H. unfold diagonal.
    assert (0 <= INR (S J) * base1 ^ J * extra y y).
    { apply Rmult_le_pos; [apply Rmult_le_pos; [apply pos_INR|apply pow_le; unfold base1; lra]|]. unfold extra. assert (0 <= loop y <= 1) by apply ch01. pose proof (ch01 y y). lra. }
    lra.
Qed.

(** ** sums over the pairs *)
Lemma pairs_in x : In x pairs -> isin letters x.
Proof. intro H. now apply in_pairs in H. Qed.
Lemma pairs_len : INR (length pairs) = 2 ^ 20.
Proof.
  rewrite <- (Rmult_1_r (INR (length pairs))), <- (lsumR_const pairs 1), pairs_sum. rewrite (lsumR_ext _ _ (fun _ => 1024)).
  - rewrite lsumR_const, letters_len. ring.
  - intros a _. rewrite lsumR_const, letters_len. ring.
Qed.
Lemma dsum a : In a letters -> lsumR letters (DnaBlock.delta eqL a) = 1.
Proof. intro H. exact (delta_sum eqL letters letters_nodup a H). Qed.
Lemma chain_sum x : isin letters x -> lsumR pairs (ch x) = 1024.
Proof.
  intros (_ & X). rewrite pairs_sum. unfold chain. cbn [fst]. rewrite (lsumR_ext _ _ (fun a => 1024 * DnaBlock.delta eqL (snd x) a)).
  - rewrite lsumR_scale. etransitivity; [|apply Rmult_1_r]. f_equal. exact (dsum _ X).
  - intros a _. rewrite lsumR_const, letters_len. reflexivity.
Qed.
Lemma chain_total : lsumR pairs (fun x => lsumR pairs (fun y => ch x y)) = 2 ^ 30.
Proof.
  rewrite (lsumR_ext _ _ (fun _ => 1024)) by (intros x X; apply chain_sum, pairs_in, X). rewrite lsumR_const, pairs_len. ring.
Qed.
Lemma loop_sum : lsumR pairs loop = 1024.
Proof.
  rewrite pairs_sum. rewrite (lsumR_ext _ _ (fun _ => 1)); [rewrite lsumR_const, letters_len; ring|]. intros a A. unfold loop, chain. cbn [fst snd].
  rewrite (lsumR_ext _ _ (fun b => DnaBlock.delta eqL a b)); [exact (dsum a A)|]. intros b _. unfold DnaBlock.delta. destruct (eqL b a), (eqL a b); congruence.
Qed.
Lemma same_sum x : isin letters x -> lsumR pairs (sm x) = 1.
Proof.
  intros (X1 & X2). rewrite pairs_sum. unfold same. cbn [fst snd]. rewrite (lsumR_ext _ _ (DnaBlock.delta eqL (fst x))); [exact (dsum _ X1)|].
  intros a _. rewrite lsumR_scale. etransitivity; [|apply Rmult_1_r]. f_equal. exact (dsum _ X2).
Qed.
Definition variance_bound (J : nat) : R :=
  - (2 ^ 40 * (INR (S J) * gamma * base0 ^ J)) + (INR (S J) * base1 ^ J * (64 + / 2 ^ 9) + diagonal J * 2 ^ 20).
Lemma extra_total : lsumR pairs (fun x => lsumR pairs (fun y => extra x y)) = 64 + / 2 ^ 9.
Proof.
  rewrite (lsumR_ext _ _ (fun x => / 2 ^ 25 * lsumR pairs (fun y => ch x y) + (/ 2 ^ 25 * lsumR pairs (fun y => ch y x) + (2 ^ 20 / 2 ^ 40 * loop x + 1024 / 2 ^ 40)))).
  - rewrite !lsumR_plus, !lsumR_scale, chain_total, (lsumR_swap pairs pairs (fun x y => ch y x)), chain_total, loop_sum, lsumR_const, pairs_len. field.
  - intros x X. rewrite (lsumR_ext _ _ (fun y => / 2 ^ 25 * ch x y + (/ 2 ^ 25 * ch y x + (loop x / 2 ^ 40 + / 2 ^ 40 * loop y)))) by (intros; unfold extra; field).
    rewrite !lsumR_plus, !lsumR_scale, lsumR_const, loop_sum, pairs_len. apply Rplus_eq_compat_l, Rplus_eq_compat_l. field.
Qed.
Lemma variance_le J : lsumR pairs (fun x => lsumR pairs (fun y => ptwo x y ^ S J - pone x ^ S J * pone y ^ S J)) <= variance_bound J.
Proof.
  eapply Rle_trans.
  - apply lsumR_le. intros x X. apply lsumR_le. intros y Y. apply any_pair; now apply pairs_in.
  - apply Req_le. unfold variance_bound. rewrite <- extra_total.
    rewrite (lsumR_ext _ _ (fun x => 2 ^ 20 * - (INR (S J) * gamma * base0 ^ J) + (INR (S J) * base1 ^ J * lsumR pairs (fun y => extra x y) + diagonal J))).
    + rewrite !lsumR_plus, !lsumR_scale, !lsumR_const, pairs_len. ring.
    + intros x X. rewrite !lsumR_plus, !lsumR_scale, !lsumR_const, pairs_len. f_equal. f_equal.
      etransitivity; [|apply Rmult_1_r]. f_equal. exact (same_sum x (pairs_in x X)).
Qed.
Lemma mean_low K : 2 ^ 20 * one0 ^ K <= lsumR pairs (fun x => pone x ^ K).
Proof.
  rewrite <- pairs_len, <- lsumR_const. apply lsumR_le. intros x X. apply pow_incr. pose proof (pone_low x (pairs_in x X)). unfold one0. lra.
Qed.
Definition one2 : R := 1 - (2 ^ 25 - 464) / 2 ^ 40.
Lemma mean_high K : lsumR pairs (fun x => pone x ^ K) <= 2 ^ 20 * one2 ^ K + 1024 * (one1 ^ K - one2 ^ K).
Proof.
  rewrite <- pairs_len, <- lsumR_const, <- loop_sum, <- lsumR_scale_r, <- lsumR_plus. apply lsumR_le. intros x X. pose proof (pone_high x (pairs_in x X)) as H.
  pose proof (pone_low x (pairs_in x X)) as L. unfold loop, chain, DnaBlock.delta in *. destruct (eqL (snd x) (fst x)).
  - assert (pone x ^ K <= one1 ^ K) by (apply pow_incr; unfold one1; lra). lra.
  - assert (pone x ^ K <= one2 ^ K) by (apply pow_incr; unfold one2; lra). lra.
Qed.
