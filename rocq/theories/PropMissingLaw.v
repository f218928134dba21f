(** Theorems C119, C120: the law of the number of missing words. *)
From Coq Require Import Lia Lra ZArith.
From Verif Require Import BaseLemmas MissingLemmas2 MissingLemmas4 PropMissing MissingNumbers.
From Verif Require Export MissingLawSpec.
Open Scope R_scope.

(** ** the words of the program are the words of the blocks *)
Lemma opso_gword l t : opso_word (drawn l) 0 t = gword 10 2 2 l t.
Proof. unfold opso_word, gword. cbn [seq map Nat.add]. rewrite Nat.add_0_r. reflexivity. Qed.
Lemma oqso_gword l t : oqso_word (drawn l) 0 t = gword 5 4 6 l t.
Proof. reflexivity. Qed.
Lemma pair_gword l t : opso2_pair (drawn l) 0 t = gword 12 2 2 l t.
Proof. unfold opso2_pair, gword. cbn [seq map Nat.add]. rewrite Nat.add_0_r. reflexivity. Qed.
Lemma single_gword l t : opso2_single (drawn l) 0 t = gword 24 1 1 l t.
Proof.
  unfold opso2_single, gword. cbn [seq map Nat.add]. rewrite Nat.div_1_r, Nat.mod_1_r, Nat.mul_1_l, Nat.add_0_r. unfold spell. cbn [fold_left]. rewrite N.mul_0_l, N.add_0_l.
  reflexivity.
Qed.
Lemma spell_small d : forall l, (forall x, In x l -> (x < 2 ^ d)%N) -> (spell d l < 2 ^ (d * N.of_nat (length l)))%N.
Proof.
  induction l as [|x l IH]; intro H; [cbn [length]; rewrite N.mul_0_r; reflexivity|]. rewrite spell_cons. cbn [length]. rewrite Nat2N.inj_succ, N.mul_succ_r, N.pow_add_r.
  specialize (IH (fun y Y => H y (or_intror Y))). specialize (H x (or_introl eq_refl)). nia.
Qed.
Lemma gword_lt d m q l t : (gword d m q l t < 2 ^ (d * N.of_nat m))%N.
Proof.
  unfold gword. replace m with (length (map (fun a => field (drawn l (m * (t / q) + a)) (d * N.of_nat (t mod q)) d) (seq 0 m))) at 2 by (now rewrite map_length, seq_length).
  apply spell_small. intros x X. apply in_map_iff in X. destruct X as (a & <- & _). apply N.mod_lt. apply N.pow_nonzero. lia.
Qed.
Lemma holes_absent D n word h : (forall t, (word t < 2 ^ D)%N) -> (h + distinct (map word (seq 0 n)) = 2 ^ D)%N ->
  IZR (Z.of_N h) = lsumR (words D) (absent n word).
Proof.
  intros B E. pose proof (absent_sum D n word (fun t _ => B t)) as A. apply (f_equal Z.of_N) in E. rewrite N2Z.inj_add, N2Z.inj_pow in E.
  apply (f_equal IZR) in E. rewrite plus_IZR in E. change (Z.of_N 2) with 2%Z in E. lra.
Qed.
Lemma opso_absent n l : opso_holes n l = lsumR (words 20) (absent n (gword 10 2 2 l)).
Proof.
  unfold opso_holes, holes. destruct (C35_opso (drawn l) n 0) as (h & -> & E). apply holes_absent; [intro; apply (gword_lt 10 2 2)|].
  rewrite <- E. do 2 f_equal. apply map_ext. intro t. symmetry. apply opso_gword.
Qed.
Lemma oqso_absent n l : oqso_holes n l = lsumR (words 20) (absent n (gword 5 4 6 l)).
Proof.
  unfold oqso_holes, holes. destruct (C35_oqso (drawn l) n 0) as (h & -> & E). apply holes_absent; [intro; apply (gword_lt 5 4 6)|]. exact E.
Qed.
Lemma pair_absent n l : pair_holes n l = lsumR (words 24) (absent n (gword 12 2 2 l)).
Proof.
  unfold pair_holes. destruct (C63_opso2 (drawn l) n 0) as (h1 & h & -> & _ & E). apply holes_absent; [intro; apply (gword_lt 12 2 2)|].
  rewrite <- E. do 2 f_equal. apply map_ext. intro t. symmetry. apply pair_gword.
Qed.
Lemma single_absent n l : single_holes n l = lsumR (words 24) (absent n (gword 24 1 1 l)).
Proof.
  unfold single_holes. destruct (C63_opso2 (drawn l) n 0) as (h & h2 & -> & E & _). apply holes_absent; [intro; apply (gword_lt 24 1 1)|].
  rewrite <- E. do 2 f_equal. apply map_ext. intro t. symmetry. apply single_gword.
Qed.

(** ** C119: mean and variance of the number of missing words *)

(** For every number n of words and every generator width that has room for the
    letters, over all sequences of the results that the test draws. *)
Theorem C119_opso : forall w n, (20 <= w)%N ->
  let all := matrices w (2 * ((n + 1) / 2)) in let M := IZR (2 ^ 20) in
  average all (opso_holes n) = missing_mean M n /\
  average all (fun l => (opso_holes n l - missing_mean M n) ^ 2) = missing_variance M n.
Proof.
  intros w n W all M. assert (LB : (n <= 2 * ((n + 1) / 2))%nat) by (pose proof (Nat.div_mod (n + 1) 2); pose proof (Nat.mod_upper_bound (n + 1) 2); lia).
  assert (Wq : (10 * N.of_nat 2 <= w)%N) by lia. assert (Q : (0 < 2)%nat) by lia. split.
  - exact (missing_average w 10 2 2 _ n (opso_holes n) Q Wq LB (fun l _ => opso_absent n l)).
  - etransitivity; [exact (missing_square w 10 2 2 _ n (opso_holes n) Q Wq LB (fun l _ => opso_absent n l) _)|].
    change (2 ^ Z.of_N (10 * N.of_nat 2))%Z with (2 ^ 20)%Z. fold M. ring.
Qed.
Theorem C119_oqso : forall w n, (30 <= w)%N ->
  let all := matrices w (4 * ((n + 5) / 6)) in let M := IZR (2 ^ 20) in
  average all (oqso_holes n) = missing_mean M n /\
  average all (fun l => (oqso_holes n l - missing_mean M n) ^ 2) = missing_variance M n.
Proof.
  intros w n W all M. assert (LB : (n <= 6 * ((n + 5) / 6))%nat) by (pose proof (Nat.div_mod (n + 5) 6); pose proof (Nat.mod_upper_bound (n + 5) 6); lia).
  assert (Wq : (5 * N.of_nat 6 <= w)%N) by lia. assert (Q : (0 < 6)%nat) by lia. split.
  - exact (missing_average w 5 4 6 _ n (oqso_holes n) Q Wq LB (fun l _ => oqso_absent n l)).
  - etransitivity; [exact (missing_square w 5 4 6 _ n (oqso_holes n) Q Wq LB (fun l _ => oqso_absent n l) _)|].
    change (2 ^ Z.of_N (5 * N.of_nat 4))%Z with (2 ^ 20)%Z. fold M. ring.
Qed.
Theorem C119_opso2_pair : forall w n, (24 <= w)%N ->
  let all := matrices w (2 * ((n + 1) / 2)) in let M := IZR (2 ^ 24) in
  average all (pair_holes n) = missing_mean M n /\
  average all (fun l => (pair_holes n l - missing_mean M n) ^ 2) = missing_variance M n.
Proof.
  intros w n W all M. assert (LB : (n <= 2 * ((n + 1) / 2))%nat) by (pose proof (Nat.div_mod (n + 1) 2); pose proof (Nat.mod_upper_bound (n + 1) 2); lia).
  assert (Wq : (12 * N.of_nat 2 <= w)%N) by lia. assert (Q : (0 < 2)%nat) by lia. split.
  - exact (missing_average w 12 2 2 _ n (pair_holes n) Q Wq LB (fun l _ => pair_absent n l)).
  - etransitivity; [exact (missing_square w 12 2 2 _ n (pair_holes n) Q Wq LB (fun l _ => pair_absent n l) _)|].
    change (2 ^ Z.of_N (12 * N.of_nat 2))%Z with (2 ^ 24)%Z. fold M. ring.
Qed.
(** An odd number of words leaves the last result unused, as the program does. *)
Theorem C119_opso2_single : forall w n, (24 <= w)%N ->
  let all := matrices w (2 * ((n + 1) / 2)) in let M := IZR (2 ^ 24) in
  average all (single_holes n) = missing_mean M n /\
  average all (fun l => (single_holes n l - missing_mean M n) ^ 2) = missing_variance M n.
Proof.
  intros w n W all M. assert (LB : (n <= 1 * (2 * ((n + 1) / 2)))%nat) by (pose proof (Nat.div_mod (n + 1) 2); pose proof (Nat.mod_upper_bound (n + 1) 2); lia).
  assert (Wq : (24 * N.of_nat 1 <= w)%N) by lia. assert (Q : (0 < 1)%nat) by lia.
  assert (EA : all = matrices w (1 * (2 * ((n + 1) / 2)))) by (unfold all; now rewrite Nat.mul_1_l). rewrite EA. split.
  - exact (missing_average w 24 1 1 _ n (single_holes n) Q Wq LB (fun l _ => single_absent n l)).
  - etransitivity; [exact (missing_square w 24 1 1 _ n (single_holes n) Q Wq LB (fun l _ => single_absent n l) _)|].
    change (2 ^ Z.of_N (24 * N.of_nat 1))%Z with (2 ^ 24)%Z. fold M. ring.
Qed.
(** One word leaves all but one missing: no variance; two words miss all but
    one or all but two. *)
Example C119_ex : missing_mean (IZR (2 ^ 20)) 1 = 1048575 /\ missing_variance (IZR (2 ^ 20)) 1 = 0 /\
  missing_mean (IZR (2 ^ 20)) 2 = 1048574 + / 1048576 /\
  opso_holes 2 [5; 6 + 2 ^ 10 * 6]%N = 1048574 /\ opso_holes 2 [5; 6; 0; 0]%N = 1048574.
Proof.
  change (IZR (2 ^ 20)) with 1048576. split; [unfold missing_mean; field|]. split; [unfold missing_variance, missing_mean; field|]. split; [unfold missing_mean; field|].
  assert (G : forall l, distinct (map (opso_word (drawn l) 0) (seq 0 2)) = 2%N -> opso_holes 2 l = 1048574).
  { intros l D. unfold opso_holes, holes. destruct (C35_opso (drawn l) 2 0) as (h & -> & E). rewrite D in E. f_equal.
    assert (h = 1048574)%N as -> by lia. reflexivity. }
  split; apply G; vm_compute; reflexivity.
Qed.

(** ** C120: the expected values and standard deviations of the tests *)
Lemma standardised all (H : list N -> R) y sigma mu v : (length all <> 0)%nat -> sigma <> 0 -> average all H = mu -> average all (fun l => (H l - mu) ^ 2) = v ->
  average all (fun l => (y - H l) / sigma) = (y - mu) / sigma /\ average all (fun l => ((y - H l) / sigma) ^ 2) = (v + (y - mu) ^ 2) / sigma ^ 2.
Proof.
  intros L S A V. unfold average in *. assert (K : INR (length all) <> 0) by (now apply not_0_INR). set (k := INR (length all)) in *.
  assert (SA : lsumR all H = k * mu) by (rewrite <- A; field; exact K). assert (SV : lsumR all (fun l => (H l - mu) ^ 2) = k * v) by (rewrite <- V; field; exact K).
  split.
  - rewrite (lsumR_ext all _ (fun l => y / sigma + - (1 / sigma) * H l)) by (intros; field; exact S). rewrite lsumR_plus, lsumR_const, lsumR_scale, SA. fold k. field. auto.
  - rewrite (lsumR_ext all _ (fun l => (y - mu) ^ 2 / sigma ^ 2 + (1 / sigma ^ 2 * (H l - mu) ^ 2 + (- (2 * (y - mu)) / sigma ^ 2) * (H l - mu)))) by (intros; field; exact S).
    rewrite !lsumR_plus, lsumR_const, !lsumR_scale, SV. fold k.
    rewrite (lsumR_ext all _ (fun l => H l + - mu)) by (intros; ring). rewrite lsumR_plus, lsumR_const, SA. fold k. field. auto.
Qed.
Lemma matrices_some w k : length (matrices w k) <> 0%nat.
Proof. intro E. pose proof (matrices_len w k) as M. rewrite E in M. cbn [INR] in M. symmetry in M. revert M. apply pow_ne, two_ne. lia. Qed.

(** The statistic that the p-value is computed from: (y - x)/sigma. *)
Definition z_of (H : list N -> R) (y sigma : R) (l : list N) : R := (y - H l) / sigma.
Lemma moments20 : let n := N.to_nat (2 ^ 21) in let M := IZR (2 ^ 20) in
  141909.194619809 <= missing_mean M n <= 141909.194619810 /\ 84293.2864 <= missing_variance M n <= 84293.2865.
Proof.
  intros n M. destruct powers20 as (A & B). fold n in A, B. unfold missing_variance, missing_mean. fold M in A, B. set (p := (1 - 1 / M) ^ n) in *. set (q := (1 - 2 / M) ^ n) in *. clearbody p q.
  unfold M. clear M n. change (IZR (2 ^ 20)) with 1048576. change (IZR (10 ^ 40)) with 10000000000000000000000000000000000000000 in *. split; [lra|]. nra.
Qed.
Lemma moments24 : let n := N.to_nat (2 ^ 26) in let M := IZR (2 ^ 24) in
  307285.3931830162 <= missing_mean M n <= 307285.3931830163 /\ 279144.756392878282 <= missing_variance M n <= 279144.756392878283.
Proof.
  intros n M. destruct powers24 as (A & B). fold n in A, B. unfold missing_variance, missing_mean. fold M in A, B. set (p := (1 - 1 / M) ^ n) in *. set (q := (1 - 2 / M) ^ n) in *. clearbody p q.
  unfold M. clear M n. change (IZR (2 ^ 24)) with 16777216. change (IZR (10 ^ 40)) with 10000000000000000000000000000000000000000 in *. split; [lra|]. nra.
Qed.

(** With the default number of samples (diehard_opso.h, diehard_oqso.h:
    2097152; dab_opso2.c:78) the statistic should have mean 0 and mean square
    1.  OPSO is right to a thousandth, OPSO2 to ten digits. *)
Theorem C120_opso : forall w, (20 <= w)%N ->
  let n := N.to_nat (2 ^ 21) in let all := matrices w (2 * ((n + 1) / 2)) in
  let z := z_of (opso_holes n) (opso_y reals) (opso_sigma reals) in
  Rabs (average all z) <= 0.0005 /\ Rabs (average all (fun l => z l ^ 2) - 1) <= 0.0009.
Proof.
  intros w W n all z. destruct (C119_opso w n W) as (A & V). fold all in A, V.
  assert (ES : opso_sigma reals = 290.4622634038) by (unfold opso_sigma; cbn [nlit reals]; change (IZR (10 ^ 10)) with 10000000000; lra).
  assert (EY : opso_y reals = 141909.3299550069) by (unfold opso_y; cbn [nlit reals]; change (IZR (10 ^ 10)) with 10000000000; lra).
  assert (S0 : opso_sigma reals <> 0) by (rewrite ES; lra).
  destruct (standardised all _ (opso_y reals) (opso_sigma reals) _ _ (matrices_some w _) S0 A V) as (Z1 & Z2).
  pose proof moments20 as (M1 & M2). fold n in M1, M2. unfold z, z_of. rewrite Z1, Z2, ES, EY. clear - M1 M2.
  set (mu := missing_mean _ _) in *. set (v := missing_variance _ _) in *. clearbody mu v. split; apply Rabs_le.
  - split; lra.
  - assert (B : 0 <= (141909.3299550069 - mu) ^ 2 <= 0.02) by nra. lra.
Qed.
Theorem C120_opso2 : forall w, (24 <= w)%N ->
  let n := N.to_nat (2 ^ 26) in let all := matrices w (2 * ((n + 1) / 2)) in
  forall H, H = single_holes n \/ H = pair_holes n ->
  let z := z_of H (opso2_y reals) (opso2_sigma reals) in
  Rabs (average all z) <= 2 / 10 ^ 9 /\ Rabs (average all (fun l => z l ^ 2) - 1) <= 1 / 10 ^ 13.
Proof.
  intros w W n all H EH z.
  assert (AV : average all H = missing_mean (IZR (2 ^ 24)) n /\ average all (fun l => (H l - missing_mean (IZR (2 ^ 24)) n) ^ 2) = missing_variance (IZR (2 ^ 24)) n).
  { destruct EH as [->| ->]; [apply (C119_opso2_single w n W)|apply (C119_opso2_pair w n W)]. }
  destruct AV as (A & V).
  assert (ES : opso2_sigma reals = 528.341514924662) by (unfold opso2_sigma; cbn [nlit reals]; change (IZR (10 ^ 12)) with 1000000000000; lra).
  assert (EY : opso2_y reals = 307285.393182468) by (unfold opso2_y; cbn [nlit reals]; change (IZR (10 ^ 9)) with 1000000000; lra).
  assert (S0 : opso2_sigma reals <> 0) by (rewrite ES; lra).
  destruct (standardised all _ (opso2_y reals) (opso2_sigma reals) _ _ (matrices_some w _) S0 A V) as (Z1 & Z2).
  pose proof moments24 as (M1 & M2). fold n in M1, M2. unfold z, z_of. rewrite Z1, Z2, ES, EY. clear - M1 M2.
  set (mu := missing_mean _ _) in *. set (v := missing_variance _ _) in *. clearbody mu v. split; apply Rabs_le.
  - split; lra.
  - assert (B : 0 <= (307285.393182468 - mu) ^ 2 <= 1 / 10 ^ 10) by nra. lra.
Qed.
(** OQSO divides by 294.6558723658, the standard deviation for overlapping
    words, but its words do not overlap: the number of missing words deviates by
    290.33 and the statistic varies three percent too little. *)
Theorem C120_oqso_refuted : forall w, (30 <= w)%N ->
  let n := N.to_nat (2 ^ 21) in let all := matrices w (4 * ((n + 5) / 6)) in
  let z := z_of (oqso_holes n) (oqso_y reals) (oqso_sigma reals) in
  0.0013 <= average all z <= 0.0014 /\ 0.9708 <= average all (fun l => z l ^ 2) <= 0.9709 /\
  290.333 <= sqrt (average all (fun l => (oqso_holes n l - average all (oqso_holes n)) ^ 2)) <= 290.334.
Proof.
  intros w W n all z. destruct (C119_oqso w n W) as (A & V). fold all in A, V.
  assert (ES : oqso_sigma reals = 294.6558723658) by (unfold oqso_sigma; cbn [nlit reals]; change (IZR (10 ^ 10)) with 10000000000; lra).
  assert (EY : oqso_y reals = 141909.6005321316) by (unfold oqso_y; cbn [nlit reals]; change (IZR (10 ^ 10)) with 10000000000; lra).
  assert (S0 : oqso_sigma reals <> 0) by (rewrite ES; lra).
  destruct (standardised all _ (oqso_y reals) (oqso_sigma reals) _ _ (matrices_some w _) S0 A V) as (Z1 & Z2).
  pose proof moments20 as (M1 & M2). fold n in M1, M2. unfold z, z_of. rewrite Z1, Z2, A, V, ES, EY. clear - M1 M2.
  set (mu := missing_mean _ _) in *. set (v := missing_variance _ _) in *. clearbody mu v. split; [split; lra|]. split.
  - assert (B : 0.16 <= (141909.6005321316 - mu) ^ 2 <= 0.17) by nra. lra.
  - split; [rewrite <- (sqrt_Rsqr 290.333) by lra|rewrite <- (sqrt_Rsqr 290.334) by lra]; apply sqrt_le_1_alt; unfold Rsqr; lra.
Qed.
(** The number of samples is an option of the program, the expected count is
    not: with half a million samples or fewer the statistic is below -1300 on
    average. *)
Theorem C120_other_samples_refuted : forall w n, (20 <= w)%N -> (N.of_nat n <= 2 ^ 19)%N ->
  average (matrices w (2 * ((n + 1) / 2))) (z_of (opso_holes n) (opso_y reals) (opso_sigma reals)) <= -1300.
Proof.
  intros w n W Hn. destruct (C119_opso w n W) as (A & V). set (all := matrices w _) in *.
  assert (ES : opso_sigma reals = 290.4622634038) by (unfold opso_sigma; cbn [nlit reals]; change (IZR (10 ^ 10)) with 10000000000; lra).
  assert (EY : opso_y reals = 141909.3299550069) by (unfold opso_y; cbn [nlit reals]; change (IZR (10 ^ 10)) with 10000000000; lra).
  assert (S0 : opso_sigma reals <> 0) by (rewrite ES; lra).
  destruct (standardised all _ (opso_y reals) (opso_sigma reals) _ _ (matrices_some w _) S0 A V) as (Z1 & _). unfold z_of. rewrite Z1, ES, EY.
  assert (B : 524288 <= missing_mean (IZR (2 ^ 20)) n).
  { unfold missing_mean. change (IZR (2 ^ 20)) with 1048576. pose proof (poly n (-1 / 1048576)) as P.
    assert (G : forall k, 1 - INR k / 1048576 <= (1 - 1 / 1048576) ^ k).
    { induction k as [|k IH]; [cbn; lra|]. rewrite S_INR. cbn [pow]. pose proof (pos_INR k). nra. }
    specialize (G n). assert (IN : INR n <= 524288).
    { rewrite INR_IZR_INZ. apply IZR_le. change (2 ^ 19)%N with 524288%N in Hn. lia. }
    lra. }
  lra.
Qed.
(** The p-values are computed from these statistics: expected count minus
    count, and the standard deviation; dab_opso2 sets its own number of samples. *)
Theorem C120_pvalues : forall P l n w,
  diehard_opso reals P (drawn l) n 0 = Ok (P (opso_y reals - opso_holes n l) (opso_sigma reals)) /\
  diehard_oqso reals P (drawn l) n 0 = Ok (P (oqso_y reals - oqso_holes n l) (oqso_sigma reals)) /\
  ((24 <= w)%N -> let m := N.to_nat (2 ^ 26) in dab_opso2 reals P w (drawn l) 0 =
     Ok (P (opso2_y reals - single_holes m l) (opso2_sigma reals), P (opso2_y reals - pair_holes m l) (opso2_sigma reals))) /\
  ((w < 24)%N -> dab_opso2 reals P w (drawn l) 0 = Ok (5 / 10, 5 / 10)).
Proof.
  intros P l n w. split; [|split; [|split]].
  - unfold diehard_opso, opso_holes, holes. destruct (C35_opso (drawn l) n 0) as (h & -> & _). reflexivity.
  - unfold diehard_oqso, oqso_holes, holes. destruct (C35_oqso (drawn l) n 0) as (h & -> & _). reflexivity.
  - intros W m. unfold dab_opso2, single_holes, pair_holes. fold m. rewrite (proj2 (N.ltb_ge w 24) W). clearbody m. destruct (C63_opso2 (drawn l) m 0) as (h1 & h2 & -> & _ & _). reflexivity.
  - intro W. unfold dab_opso2. now rewrite (proj2 (N.ltb_lt w 24) W).
Qed.
Example C120_ex : (20 <= 32)%N /\ (24 <= 32)%N /\ (30 <= 32)%N /\ (N.of_nat (N.to_nat 100000) <= 2 ^ 19)%N /\
  (* the p-value is computed from y - x *)
  diehard_opso reals (fun d s => d / s) (drawn [5; 6]%N) 1 0 = Ok ((opso_y reals - 1048575) / opso_sigma reals).
Proof.
  do 3 (split; [lia|]). split; [rewrite N2Nat.id; lia|]. unfold diehard_opso. destruct (C35_opso (drawn [5; 6]%N) 1 0) as (h & -> & E). cbn [bind fst].
  assert (h = 1048575)%N as ->; [|reflexivity]. change (distinct (map (opso_word (drawn [5; 6]%N) 0) (seq 0 1))) with 1%N in E. change (2 ^ 20)%N with 1048576%N in E. lia.
Qed.

Print Assumptions C119_opso.
Print Assumptions C119_oqso.
Print Assumptions C119_opso2_pair.
Print Assumptions C119_opso2_single.
Print Assumptions C120_opso.
Print Assumptions C120_opso2.
Print Assumptions C120_oqso_refuted.
Print Assumptions C120_other_samples_refuted.
Print Assumptions C120_pvalues.
