(** Theorems C130, C131 and C132: the law behind the second tree-filling test. *)
From Coq Require Import Lia Lra.
From Verif Require Import BaseLemmas TallyLemmas OpermReal RunsArcs PropChisq3 CoinLaw CoinNumbers TreeCoin TreeLawLemmas TreeBins.
From Verif Require Export TreeLawSpec.
Open Scope R_scope.

(** ** C130: fair bits *)

(** The program carries out the experiment [some_trees] on the bits of the
    generator's words, least significant first: it tallies for every tree the
    number of descents and the slot where the last one ended. *)
Theorem C130_program : forall g w m c bs, (1 <= w <= 32)%N -> (762 * m <= length bs)%nat ->
  (forall n, (n < length bs)%nat -> nth n bs false = lsb_stream (fun k => g (c + k)%nat) w n) ->
  exists rs counts pos s, trees_of m bs = Some (map Some rs) /\ length rs = m /\ (forall r, In r rs -> (1 <= fst r <= 127)%nat /\ (snd r < 64)%N) /\
    filltree2 g 128 w m c = Ok (Some (counts, pos), s) /\ length counts = 128%nat /\ length pos = 64%nat /\
    tallies counts (map (fun r => Z.of_nat (fst r) - 1)%Z rs) /\ tallies pos (map (fun r => Z.of_N (snd r)) rs).
Proof. intros g w m c bs [W1 W2] L E. apply program_coin; assumption. Qed.
Definition g_ex (k : nat) : N := (N.of_nat k * 2654435761 + 97531) mod 2 ^ 32.
Example C130_program_ex :
  trees_of 2 (first_bits g_ex 32 0 (762 * 2)) = Some [Some (42%nat, 14%N); Some (47%nat, 52%N)] /\
  match filltree2 g_ex 128 32 2 0 with Ok (Some (counts, pos), _) => nth 41 counts 0%N = 1%N /\ nth 46 counts 0%N = 1%N /\ nth 14 pos 0%N = 1%N /\ nth 52 pos 0%N = 1%N | _ => False end.
Proof. split; [vm_compute; reflexivity|]. vm_compute. repeat split; reflexivity. Qed.

(** Over all bit strings of a length that suffices (762 bits for a tree) the
    trees are independent and have the same law. *)
Theorem C130_independent : forall L m rs, (762 * m <= L)%nat -> length rs = m ->
  tree_chance L m rs = fold_right Rmult 1 (map (fun r => tree_chance 762 1 [r]) rs).
Proof. exact chance_product. Qed.
Example C130_independent_ex : tree_chance 2000 2 [Some (7%nat, 0%N); Some (7%nat, 5%N)] = tree_chance 762 1 [Some (7%nat, 0%N)] * tree_chance 762 1 [Some (7%nat, 5%N)].
Proof. rewrite (C130_independent 2000 2) by (reflexivity || (apply Nat.leb_le; vm_compute; reflexivity)). cbn [map fold_right]. ring. Qed.

(** Whatever the number of descents, all 64 slots are equally likely. *)
Theorem C130_slots : forall n p q, (1 <= n <= 127)%nat -> (p < 64)%N -> (q < 64)%N ->
  tree_chance 762 1 [Some (n, p)] = tree_chance 762 1 [Some (n, q)].
Proof.
  intros n p q H P Q. rewrite !chance_ends by exact H. apply (ends_marked (n - 1) 5 p q); [|exact P|exact Q]. intros k a b A B. apply ends_uniform; assumption.
Qed.
(** Every tree ends, after at most 127 descents, at one of the slots: these chances add up to 1. *)
Theorem C130_complete : rsum 127 law2 = 1.
Proof. exact law2_total. Qed.
Example C130_slots_ex : tree_chance 762 1 [Some (20%nat, 0%N)] = tree_chance 762 1 [Some (20%nat, 63%N)].
Proof. apply C130_slots; lia. Qed.
(** The table of the program is this law, every entry to within 4/10^15 of its value;
    the last of its 128 entries is zero. *)
Theorem C130_table : (forall i, (i < 127)%nat -> Rabs (entry target2 i - law2 i) <= 4 / 10 ^ 15 * law2 i) /\ entry target2 127 = 0.
Proof. split; [exact table2_entry|]. rewrite (entry_is target2 127 0 0 1 eq_refl eq_refl). lra. Qed.
(** The fewest descents are seven, with chance 1/2^21. *)
Example C130_table_ex : entry target2 6 = 1 / 2 ^ 21 /\ Rabs (1 / 2 ^ 21 - law2 6) <= 4 / 10 ^ 15 * law2 6.
Proof. assert (E : entry target2 6 = 1 / 2 ^ 21) by (rewrite (entry_is target2 6 476837158203125 21 1000000000000000000000 eq_refl eq_refl); replace (2 ^ 21) with 2097152 by ring; lra). split; [exact E|]. rewrite <- E. apply C130_table. lia. Qed.

(** ** C131: the p-values *)

(** From 113 samples on there is a first bin that expects at least four trees
    and a last that expects more than four. *)
Theorem C131_bins : forall m, 113 <= m -> exists a b, bins target2 m a b.
Proof.
  intros m M. apply (bins_exist target2 45); [vm_compute; reflexivity|cbn; lia|rewrite (entry_is target2 0 0 0 1 eq_refl eq_refl); lra|lra|]. rewrite (entry_is target2 45 355026634060874 16 10000000000000000 eq_refl eq_refl). lra.
Qed.
(** With the default of 5,000,000 samples these are the bins of 8 and 90 descents. *)
Example C131_bins_ex : bins target2 5000000 7 89.
Proof.
  apply (bins_at target2 45); [vm_compute; reflexivity|cbn; lia|lra|lia|cbn; lia|change (7 - 1)%nat with 6%nat; rewrite (entry_is target2 6 476837158203125 21 1000000000000000000000 eq_refl eq_refl); lra|rewrite (entry_is target2 7 286102294921875 20 100000000000000000000 eq_refl eq_refl); lra|rewrite (entry_is target2 89 125320523087539 20 100000000000000000000 eq_refl eq_refl); lra|]. intros _. rewrite (entry_is target2 90 69352747611892 20 100000000000000000000 eq_refl eq_refl). lra.
Qed.
(** The p-values, in exact arithmetic, of m samples: the first compares the bins
    from the first to the one before the last with the table, the second all
    slots with equal chances. *)
Theorem C131_pvalues : forall Q g w m c a b, (1 <= w <= 32)%N -> bins target2 (INR m) a b ->
  exists rs, trees_of m (first_bits g w c (762 * m)) = Some (map Some rs) /\
  dab_filltree2 reals Q ln g w m c =
  Ok (Q ((INR (b - a) - 1) / 2) (bins_chisq target2 (INR m) a b rs / 2),
      Some (Q ((64 - 1) / 2) (Rabs (likelihood_ratio (map (fun p => how_many (ended p) rs) (seq 0 64)) (INR m) / smith 64 (INR m)) / 2))).
Proof.
  intros Q g w m c a b W B.
  assert (LB : length (first_bits g w c (762 * m)) = (762 * m)%nat) by (unfold first_bits; rewrite map_length, seq_length; reflexivity).
  destruct (C130_program g w m c (first_bits g w c (762 * m)) W ltac:(lia)) as (rs & counts & pos & s & T & L & BD & E & LC & LP & TC & TP).
  { intros n H. rewrite LB in H. unfold first_bits. rewrite (nth_indep _ false (lsb_stream (fun k => g (c + k)%nat) w 0)) by (rewrite map_length, seq_length; exact H). rewrite map_nth, seq_nth by exact H. reflexivity. }
  exists rs. split; [exact T|]. unfold dab_filltree2. rewrite E. cbn [bind].
  rewrite (tree_pvalue_ok Q target2 counts m a b rs B).
  - cbn [bind]. assert (M : (0 < m)%nat). { destruct m; [|lia]. exfalso. destruct B as (_ & _ & _ & _ & TB & _). cbn [INR] in TB. lra. }
    change 64%Z with (Z.of_nat 64). rewrite <- LP at 1. rewrite C107_gtest by lia. cbn [bind]. rewrite LP. replace (INR 64) with 64 by (rewrite INR_IZR_INZ; reflexivity). rewrite <- INR_IZR_INZ.
    do 8 f_equal. apply (nth_ext _ _ 0 0); [unfold PropChisq3.counts; rewrite !map_length, seq_length; exact LP|]. unfold PropChisq3.counts. rewrite map_length, LP. intros p P.
    rewrite (nth_indep _ 0 (IZR (Z.of_N 0))) by (rewrite map_length; lia). rewrite (map_nth (fun o => IZR (Z.of_N o))).
    rewrite (nth_indep (map _ (seq 0 64)) 0 (how_many (ended 0) rs)) by (rewrite map_length, seq_length; exact P). rewrite (map_nth (fun p => how_many (ended p) rs)), seq_nth by exact P. cbn [Nat.add].
    unfold how_many. do 2 f_equal. rewrite (proj2 TP) by lia. rewrite countp_map. apply countp_ext. intros r _. unfold ended. destruct (Z.eqb_spec (Z.of_N (snd r)) (Z.of_nat p)), (N.eqb_spec (snd r) (N.of_nat p)); try reflexivity; exfalso; lia.
  - exact LC.
  - intros i I. change (length target2) with 128%nat in I. rewrite (proj2 TC) by lia. rewrite countp_map. apply countp_ext. intros r R. destruct (BD r R) as [R1 _]. unfold took.
    destruct (Z.eqb_spec (Z.of_nat (fst r) - 1) (Z.of_nat i)), (Nat.eqb_spec (fst r) (S i)); try reflexivity; exfalso; lia.
Qed.
(** With at most 112 samples no bin expects four trees; the program then takes
    the difference of two unsigned numbers, 0 - 128, for a number of bins. *)
Theorem C132_few_refuted : forall Q g w m c, (1 <= w <= 32)%N -> (m <= 112)%nat -> dab_filltree2 reals Q ln g w m c = UB "index".
Proof.
  intros Q g w m c W M.
  assert (LB : length (first_bits g w c (762 * m)) = (762 * m)%nat) by (unfold first_bits; rewrite map_length, seq_length; reflexivity).
  destruct (C130_program g w m c (first_bits g w c (762 * m)) W ltac:(lia)) as (rs & counts & pos & s & T & L & BD & E & LC & LP & TC & TP).
  { intros n H. rewrite LB in H. unfold first_bits. rewrite (nth_indep _ false (lsb_stream (fun k => g (c + k)%nat) w 0)) by (rewrite map_length, seq_length; exact H). rewrite map_nth, seq_nth by exact H. reflexivity. }
  unfold dab_filltree2. rewrite E. cbn [bind]. unfold tree_pvalue. rewrite range_none; [reflexivity|].
  intros i I. pose proof (below_peak target2 45 i ltac:(vm_compute; reflexivity) ltac:(cbn; lia) I) as P.
  assert (E45 : entry target2 45 = 355026634060874 / 10000000000000000) by (rewrite (entry_is target2 45 355026634060874 16 10000000000000000 eq_refl eq_refl); lra). assert (INR m <= 112) by (apply le_INR in M; rewrite (INR_IZR_INZ 112) in M; exact M). pose proof (pos_INR m).
  assert (0 <= entry target2 45) by lra. assert (INR m * entry target2 i <= INR m * entry target2 45) by (apply Rmult_le_compat_l; assumption). nra.
Qed.
Example C132_few_ex : dab_filltree2 reals (fun a x => a + x) ln g_ex 32 100 0 = UB "index".
Proof. apply C132_few_refuted; lia. Qed.

(** Over all bit strings, the mean of the first statistic is the number of bins
    minus their probability, within 5/10^15 for each bin: the degrees of freedom
    of its p-value plus the probability of the counts left out. *)
Theorem C131_mean : forall L m a b, (762 * m <= L)%nat -> (INR m < 2 ^ 32) -> bins target2 (INR m) a b ->
  Rabs (average (strings L) (fun bs => bins_chisq target2 (INR m) a b (results_of (trees_of m bs))) -
        (INR (b - a) - 1 + (1 - rsum (b - a) (fun j => law2 (a + j))))) <= INR (b - a) * (5 / 10 ^ 15).
Proof.
  intros L m a b HL M32 B. assert (M1 : (1 <= m)%nat). { destruct m; [|lia]. exfalso. destruct B as (_ & _ & _ & _ & TB & _). cbn [INR] in TB. lra. }
  assert (MP : 0 < INR m) by (apply lt_0_INR; lia). destruct B as (AB & BL & LO & MI & TB & HI). change (length target2) with 128%nat in BL.
  assert (POS : forall i, (a <= i < b)%nat -> 0 < entry target2 i). { intros i I. pose proof (MI i ltac:(lia)) as Q. destruct (Rlt_le_dec 0 (entry target2 i)) as [|N]; [assumption|]. nra. }
  rewrite chisq_mean by (assumption || (intros i I; pose proof (POS i I); lra)).
  replace (INR (b - a) - 1 + (1 - rsum (b - a) (fun j => law2 (a + j)))) with (rsum (b - a) (fun j => 1 - law2 (a + j))).
  2: { rewrite rsum_minus, rsum_const. ring. }
  rewrite <- rsum_minus, <- (rsum_const (b - a)). eapply Rle_trans; [apply rsum_abs|]. apply rsum_le. intros j J. cbv zeta.
  set (i := (a + j)%nat) in *. pose proof (POS i ltac:(lia)) as P. pose proof (proj1 C130_table i ltac:(lia)) as T. pose proof (law2_pos i) as P0.
  assert (P1 : law2 i <= 1). { rewrite <- C130_complete. apply rsum_term; [intros; apply law2_pos|lia]. }
  set (t := entry target2 i) in *. set (p := law2 i) in *. clearbody t p. replace (10 ^ 15) with 1000000000000000 in * by ring.
  apply abs_bounds in T. replace (2 ^ 32) with 4294967296 in M32 by ring.
  replace ((p * (1 - p) + INR m * (t - p) ^ 2) / t - (1 - p)) with (((p - t) * (1 - p) + INR m * (t - p) ^ 2) / t) by (field; lra).
  set (d := t - p) in *. assert (TD : p <= 2 * t) by (unfold d in T; lra). assert (D : Rabs d <= 4 / 1000000000000000 * p) by (apply Rabs_le; exact T).
  unfold Rdiv at 1. rewrite Rabs_mult, (Rabs_pos_eq (/ t)) by (left; apply Rinv_0_lt_compat; exact P).
  apply Rmult_le_reg_r with t; [exact P|]. rewrite Rmult_assoc, Rinv_l, Rmult_1_r by lra.
  eapply Rle_trans; [apply Rabs_triang|]. replace (p - t) with (- d) by (unfold d; ring). rewrite Rabs_mult, Rabs_Ropp, (Rabs_pos_eq (1 - p)) by lra.
  rewrite (Rabs_pos_eq (INR m * d ^ 2)) by (apply Rmult_le_pos; [lra|apply pow2_ge_0]).
  rewrite <- (Rsqr_pow2 d), Rsqr_abs. unfold Rsqr. pose proof (Rabs_pos d) as DP. generalize dependent (Rabs d). intros x D DP.
  assert (X1 : x * (1 - p) <= 4 / 1000000000000000 * p) by nra.
  assert (X2 : x * x <= (4 / 1000000000000000 * p) * (4 / 1000000000000000)) by nra.
  assert (X3 : INR m * (x * x) <= 4294967296 * ((4 / 1000000000000000 * p) * (4 / 1000000000000000))) by (apply Rmult_le_compat; nra).
  unfold d in T. lra.
Qed.
(** With the default number of samples: 81 degrees of freedom, and a mean that exceeds them by 3.19/10^6. *)
Theorem C131_default : forall L m a b, INR m = 5000000 -> (762 * m <= L)%nat -> bins target2 (INR m) a b ->
  (b - a)%nat = 82%nat /\
  Rabs (average (strings L) (fun bs => bins_chisq target2 (INR m) a b (results_of (trees_of m bs))) - (81 + 319 / 10 ^ 8)) <= 1 / 10 ^ 8.
Proof.
  intros L m a b M HL B. assert (B' := C131_bins_ex). rewrite <- M in B'. destruct (bins_unique target2 (INR m) a b 7 89 B B') as [-> ->]. split; [reflexivity|].
  pose proof (C131_mean L m 7 89 HL ltac:(rewrite M; replace (2 ^ 32) with 4294967296 by ring; lra) B) as X. change (89 - 7)%nat with 82%nat in X. replace (INR 82) with 82 in X by (rewrite INR_IZR_INZ; reflexivity).
  assert (S1 : Rabs (rsum 82 (fun j => entry target2 (7 + j)) - (1 - 3193 / 10 ^ 9)) <= 1 / 10 ^ 9).
  { rewrite (entries_sum target2 7 82 30) by (vm_compute; reflexivity).
    set (z := zsum 82 (fun j => scaled 30 (nth (7 + j) target2 (0, 0)%Z))). vm_compute in z. subst z. apply Rabs_le. lra. }
  assert (S2 : Rabs (rsum 82 (fun j => entry target2 (7 + j)) - rsum 82 (fun j => law2 (7 + j))) <= INR 82 * (4 / 10 ^ 15)).
  { rewrite <- rsum_minus, <- (rsum_const 82). eapply Rle_trans; [apply rsum_abs|]. apply rsum_le. intros j J. eapply Rle_trans; [apply C130_table; lia|].
    assert (law2 (7 + j) <= 1) by (rewrite <- C130_complete; apply rsum_term; [intros; apply law2_pos|lia]). pose proof (law2_pos (7 + j)). lra. }
  replace (INR 82) with 82 in S2 by (rewrite INR_IZR_INZ; reflexivity). revert X S1 S2. generalize (rsum 82 (fun j => entry target2 (7 + j))) (rsum 82 (fun j => law2 (7 + j))). intros u v X S1 S2.
  apply abs_bounds in X, S1, S2. apply Rabs_le. lra.
Qed.
Example C131_default_ex : INR (Z.to_nat 5000000) = 5000000 /\ bins target2 (INR (Z.to_nat 5000000)) 7 89.
Proof. assert (E : INR (Z.to_nat 5000000) = 5000000) by (rewrite INR_IZR_INZ, Z2Nat.id by lia; reflexivity). split; [exact E|]. rewrite E. exact C131_bins_ex. Qed.
Example C131_pvalues_ex : exists rs, trees_of (Z.to_nat 5000000) (first_bits g_ex 32 3 (762 * Z.to_nat 5000000)) = Some (map Some rs).
Proof. destruct (C131_pvalues (fun a x => a + x) g_ex 32 (Z.to_nat 5000000) 3 7 89 ltac:(lia) (proj2 C131_default_ex)) as (rs & E & _). exists rs. exact E. Qed.
Example C131_mean_ex : Rabs (average (strings (762 * Z.to_nat 5000000)) (fun bs => bins_chisq target2 (INR (Z.to_nat 5000000)) 7 89 (results_of (trees_of (Z.to_nat 5000000) bs))) - (81 + 319 / 10 ^ 8)) <= 1 / 10 ^ 8.
Proof. apply C131_default; [apply C131_default_ex|apply Nat.le_refl|apply C131_default_ex]. Qed.

Print Assumptions C130_program.
Print Assumptions C130_independent.
Print Assumptions C130_slots.
Print Assumptions C130_complete.
Print Assumptions C130_table.
Print Assumptions C131_bins.
Print Assumptions C131_pvalues.
Print Assumptions C132_few_refuted.
Print Assumptions C131_mean.
Print Assumptions C131_default.
