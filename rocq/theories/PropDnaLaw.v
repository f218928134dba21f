(** Theorems C121: the law of the number of words that the DNA test misses. *)
From Coq Require Import Lia Lra ZArith.
From Verif Require Import BaseLemmas MissingLemmas2 PropMissing MissingNumbers DnaBounds PropMissingLaw.
From Verif Require Export DnaLawSpec.
Open Scope R_scope.

Lemma dna_powers : let K := (2 ^ 16)%nat in
  183134031384601647884601662626398815511 / IZR (10 ^ 40) <= base0 ^ K <= 183134031384601647884601662626398815521 / IZR (10 ^ 40) /\
  186018149808099195893219893801724178036 / IZR (10 ^ 40) <= base1 ^ K <= 186018149808099195893219893801724178046 / IZR (10 ^ 40) /\
  1353311531105266488301949254215959155714 / IZR (10 ^ 40) <= one0 ^ K <= 1353311531105266488301949254215959155724 / IZR (10 ^ 40) /\
  1358608404483825519445896674269496765628 / IZR (10 ^ 40) <= one1 ^ K <= 1358608404483825519445896674269496765638 / IZR (10 ^ 40) /\
  1353348960700133651879990348592171592725 / IZR (10 ^ 40) <= one2 ^ K <= 1353348960700133651879990348592171592735 / IZR (10 ^ 40).
Proof.
  intro K. unfold K. clear K.
  replace base0 with (1 - IZR 1 / IZR (2 ^ 14)) by (unfold base0; change (IZR (2 ^ 14)) with 16384; lra).
  replace base1 with (1 - IZR 255 / IZR (2 ^ 22)) by (unfold base1; change (IZR (2 ^ 22)) with 4194304; lra).
  replace one0 with (1 - IZR 1 / IZR (2 ^ 15)) by (unfold one0; change (IZR (2 ^ 15)) with 32768; lra).
  replace one1 with (1 - IZR 511 / IZR (2 ^ 24)) by (unfold one1; change (IZR (2 ^ 24)) with 16777216; lra).
  replace one2 with (1 - IZR 33553968 / IZR (2 ^ 40)) by (unfold one2; change (IZR (2 ^ 40)) with 1099511627776; lra).
  split; [apply (power_dec 14 1 16); try lia; vm_compute; reflexivity|]. split; [apply (power_dec 22 255 16); try lia; vm_compute; reflexivity|].
  split; [apply (power_dec 15 1 16); try lia; vm_compute; reflexivity|]. split; [apply (power_dec 24 511 16); try lia; vm_compute; reflexivity|].
  apply (power_dec 40 33553968 16); try lia; vm_compute; reflexivity.
Qed.
Lemma K_pos : exists J, (2 ^ 16)%nat = S J /\ INR (S J) = 65536.
Proof.
  exists (Nat.pred (2 ^ 16)). assert (E : S (Nat.pred (2 ^ 16)) = (2 ^ 16)%nat) by (apply Nat.succ_pred, Nat.pow_nonzero; lia). rewrite E. split; [reflexivity|].
  rewrite pow_INR. cbn [INR]. lra.
Qed.
Lemma variance_number J : (2 ^ 16)%nat = S J -> INR (S J) = 65536 -> variance_bound J <= 86094.2.
Proof.
  intros EK IK. destruct dna_powers as (B0 & B1 & O0 & O1 & _). rewrite EK in *. unfold variance_bound, diagonal. rewrite IK.
  change (base0 ^ S J) with (base0 * base0 ^ J) in B0. change (base1 ^ S J) with (base1 * base1 ^ J) in B1.
  set (b0 := base0 ^ J) in *. set (b1 := base1 ^ J) in *. set (o0 := one0 ^ S J) in *. set (o1 := one1 ^ S J) in *. clearbody b0 b1 o0 o1.
  unfold base0, base1 in *. unfold gamma. change (IZR (10 ^ 40)) with 10000000000000000000000000000000000000000 in *.
  assert (L0 : 0.0183145 <= b0) by lra. assert (L1 : b1 <= 0.01860295) by lra. assert (L2 : 0.135331153 <= o0) by lra. assert (L3 : o1 <= 0.135860841) by lra. 
  assert (L4 : 0.135331153 * 0.135331153 <= o0 * o0) by (apply Rmult_le_compat; lra). lra.
Qed.
Lemma unseen_dna K l : dna_unseen (32 * K) l = unseen K l.
Proof.
  rewrite <- unseen_words. unfold dna_unseen. pose proof (absent_sum 20 (32 * K) (dna_word 32 (drawn l) 11) (fun t _ => dna_word_lt _ _ _ _)) as A.
  change (IZR (2 ^ Z.of_N 20)) with (IZR (2 ^ 20)) in A. rewrite minus_IZR. lra.
Qed.
Lemma dna_samples : N.to_nat (2 ^ 21) = (32 * 2 ^ 16)%nat.
Proof. rewrite two_pow. change (N.to_nat 21) with (5 + 16)%nat. rewrite Nat.pow_add_r. reflexivity. Qed.
Lemma average_ext {A} (l : list A) f g : (forall x, f x = g x) -> average l f = average l g.
Proof. intro H. unfold average. f_equal. apply lsumR_ext. intros x _. apply H. Qed.

(** ** C121: the constants of the DNA test *)

(** All the sequences of results that 2^21 words consume are equally likely. *)
Definition dna_sequences : list (list N) := matrices 32 (11 + 10 * N.to_nat (2 ^ 16)).
Lemma sequences_all : dna_sequences = dna_all (2 ^ 16).
Proof. unfold dna_sequences, dna_all. rewrite two_pow. reflexivity. Qed.

(** The expected number is the number of words that do not occur, up to less
    than a fiftieth of the standard deviation. *)
Theorem C121_dna_mean : let n := N.to_nat (2 ^ 21) in
  141904.99 <= average dna_sequences (dna_unseen n) <= 141909.47 /\
  Rabs (dna_y reals - average dna_sequences (dna_unseen n)) <= dna_sigma reals / 50.
Proof.
  intro n. assert (E : average dna_sequences (dna_unseen n) = lsumR pairs (fun x => pone x ^ (2 ^ 16))).
  { rewrite sequences_all, <- dna_mean. apply average_ext. intro l. unfold n. rewrite dna_samples. apply unseen_dna. }
  rewrite E. pose proof (mean_low (2 ^ 16)) as L. pose proof (mean_high (2 ^ 16)) as H. destruct dna_powers as (_ & _ & O0 & O1 & O2).
  set (mu := lsumR pairs _) in *. set (o0 := one0 ^ _) in *. set (o1 := one1 ^ _) in *. set (o2 := one2 ^ _) in *. clearbody mu o0 o1 o2.
  change (IZR (10 ^ 40)) with 10000000000000000000000000000000000000000 in *.
  assert (B : 141904.99 <= mu <= 141909.47) by (split; lra). split; [exact B|].
  assert (ES : dna_sigma reals = 337.2901506904) by (unfold dna_sigma; cbn [nlit reals]; change (IZR (10 ^ 10)) with 10000000000; lra).
  assert (EY : dna_y reals = 141910.4026047629) by (unfold dna_y; cbn [nlit reals]; change (IZR (10 ^ 10)) with 10000000000; lra).
  rewrite ES, EY. apply Rabs_le. lra.
Qed.
Lemma dna_numbers v mu : v <= 86094.2 -> 141904.99 <= mu <= 141909.47 -> sqrt v <= 293.42 /\ (v + (141910.4026047629 - mu) ^ 2) / 337.2901506904 ^ 2 <= 0.758.
Proof.
  intros V M. split.
  - rewrite <- (sqrt_pow2 293.42) by lra. apply sqrt_le_1_alt. lra.
  - assert (B : (141910.4026047629 - mu) ^ 2 <= 5.42 ^ 2) by (apply pow_incr; lra). apply (Rmult_le_reg_r (337.2901506904 ^ 2)); [lra|].
    unfold Rdiv. rewrite Rmult_assoc, Rinv_l by lra. lra.
Qed.
(** DNA divides by 337.2901506904, the standard deviation for overlapping words,
    but its words do not overlap: the number of words that do not occur deviates
    by at most 293.42, and the mean square of the statistic is at most 0.758
    instead of 1. *)
Theorem C121_dna_refuted : let n := N.to_nat (2 ^ 21) in
  let z := z_of (dna_unseen n) (dna_y reals) (dna_sigma reals) in
  sqrt (average dna_sequences (fun l => (dna_unseen n l - average dna_sequences (dna_unseen n)) ^ 2)) <= 293.42 /\
  average dna_sequences (fun l => z l ^ 2) <= 0.758.
Proof.
  intros n z. destruct C121_dna_mean as (M & _). fold n in M.
  assert (V : average dna_sequences (fun l => (dna_unseen n l - average dna_sequences (dna_unseen n)) ^ 2) <= 86094.2).
  { destruct K_pos as (J & EK & IK). apply Rle_trans with (2 := variance_number J EK IK). eapply Rle_trans; [|apply variance_le].
    rewrite <- EK, <- dna_variance, <- sequences_all. apply Req_le.
    assert (EU : forall l, dna_unseen n l = unseen (2 ^ 16) l) by (intro l; unfold n; rewrite dna_samples; apply unseen_dna).
    rewrite (average_ext dna_sequences _ _ EU). apply average_ext. intro l. now rewrite EU. }
  assert (ES : dna_sigma reals = 337.2901506904) by (unfold dna_sigma; cbn [nlit reals]; change (IZR (10 ^ 10)) with 10000000000; lra).
  assert (EY : dna_y reals = 141910.4026047629) by (unfold dna_y; cbn [nlit reals]; change (IZR (10 ^ 10)) with 10000000000; lra).
  assert (S0 : dna_sigma reals <> 0) by (rewrite ES; lra).
  destruct (standardised dna_sequences (dna_unseen n) (dna_y reals) (dna_sigma reals) _ _ (matrices_some 32 _) S0 eq_refl eq_refl) as (_ & Z2).
  unfold z, z_of. rewrite Z2, ES, EY. exact (dna_numbers _ _ V M).
Qed.
(** The program counts in chars.  It counts the words that do not occur whenever
    no word occurs 256 times; the words occur twice on average. *)
Theorem C121_dna_program : forall n l, (forall x, In x l -> (x < 2 ^ 32)%N) ->
  (forall x, times x (map (dna_word 32 (drawn l) 11) (seq 0 n)) < 256)%N ->
  holes (dna_missing (drawn l) 32 n 0) = dna_unseen n l /\
  forall P, diehard_dna reals P (drawn l) 32 n 0 = Ok (P (dna_y reals - dna_unseen n l) (dna_sigma reals)).
Proof.
  intros n l B H. destruct (C35_dna (drawn l) 32 n 0) as (m & E & D); [lia|lia|..|exact H|].
  - intro i. unfold drawn. destruct (Nat.lt_ge_cases i (length l)) as [L|L]; [apply B, nth_In, L|]. rewrite nth_overflow by exact L. reflexivity.
  - cbn [Nat.add] in D. assert (F : IZR (Z.of_N m) = dna_unseen n l).
    { unfold dna_unseen. f_equal. apply (f_equal Z.of_N) in D. rewrite N2Z.inj_add in D. change (Z.of_N (2 ^ 20)) with (2 ^ 20)%Z in D. lia. }
    split; [unfold holes; rewrite E; exact F|]. intro P. unfold diehard_dna. rewrite E. cbn [bind fst]. unfold Xtest_eval, xtest. cbn [xt_x xt_y xt_sigma]. rewrite <- F. reflexivity.
Qed.
(** A sequence in which no
    word occurs 256 times. *)
Example C121_ex : let l := seq 0 31 in let d := map N.of_nat l in
  (forall x, In x d -> (x < 2 ^ 32)%N) /\ (forall x, times x (map (dna_word 32 (drawn d) 11) (seq 0 64)) < 256)%N /\ dna_unseen 64 d = 1048576 - 12.
Proof.
  cbv zeta. split; [intros x X; apply in_map_iff in X; destruct X as (i & <- & I); apply in_seq in I; change (2 ^ 32)%N with 4294967296%N; lia|]. split.
  - intro x. assert (G : forall w, (times x w <= N.of_nat (length w))%N).
    { induction w as [|a w IH]; [reflexivity|]. cbn [times length]. rewrite Nat2N.inj_succ. destruct (a =? x)%N; lia. }
    eapply N.le_lt_trans; [apply G|]. rewrite map_length, seq_length. reflexivity.
  - unfold dna_unseen. match goal with |- context [distinct ?w] => let v := eval vm_compute in (distinct w) in replace (distinct w) with v by (vm_compute; reflexivity) end.
    change (2 ^ 20 - Z.of_N 12)%Z with 1048564%Z. lra.
Qed.

Print Assumptions C121_dna_mean.
Print Assumptions C121_dna_refuted.
Print Assumptions C121_dna_program.
