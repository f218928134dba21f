(** Theorems C133 and C134: the law behind the first tree-filling test and its
    p-values; and C132 for this test. *)
From Coq Require Import Lia Lra Permutation.
From Verif Require Import BaseLemmas TallyLemmas OpermReal RunsArcs TreeLemmas PropTree PropChisq TreeBins OrderAverage TreeOrder TreeWords TreeNumbers.
From Verif Require Export TreeOrderSpec.
Open Scope R_scope.

(** ** C133: the law *)

(** Over all orders of different numbers, the share in which number i+1 is the
    first to find no room is the table's entry, to 2.3/10^6; the first eight
    entries are the shares rounded to eight digits. *)
Theorem C133_table : forall xs all i, NoDup xs -> (i < length xs)%nat -> (i < 20)%nat -> all_orders xs all ->
  Rabs (share all (fun ys => after i (ends ys)) - entry target1 i) <= 23 / 10 ^ 7 /\
  ((i < 8)%nat -> Rabs (share all (fun ys => after i (ends ys)) - entry target1 i) <= 5 / 10 ^ 9).
Proof.
  intros xs all i ND I I20 A. unfold share. rewrite (all_orders_avg xs all _ ND A).
  change (oavg (length xs) xs (fun ys => if after i (ends ys) then 1 else 0)) with (oavg (length xs) xs (fun ys => b2r (after i (tree_end 4 Empty 0 ys)))).
  rewrite (end_avg_all 4 i xs ND I). split; [now apply table1_entry|apply table1_rounded].
Qed.
(** The later entries are not: that for eleven words is 2.2/10^6 too small. *)
Theorem C133_eleven : forall xs all, NoDup xs -> (10 < length xs)%nat -> all_orders xs all ->
  entry target1 10 + 22 / 10 ^ 7 <= share all (fun ys => after 10 (ends ys)).
Proof.
  intros xs all ND I A. unfold share. rewrite (all_orders_avg xs all _ ND A).
  change (oavg (length xs) xs (fun ys => if after 10 (ends ys) then 1 else 0)) with (oavg (length xs) xs (fun ys => b2r (after 10 (tree_end 4 Empty 0 ys)))).
  rewrite (end_avg_all 4 10 xs ND I). pose proof table1_ten. lra.
Qed.
(** The numbers of words and the slots are independent, and all 16 slots equally likely. *)
Theorem C133_slots : forall xs all i p, NoDup xs -> (i < length xs)%nat -> (p < 16)%nat -> all_orders xs all ->
  share all (fun ys => after_at i p (ends ys)) = share all (fun ys => after i (ends ys)) / 16.
Proof.
  intros xs all i p ND I P A. unfold share. rewrite !(all_orders_avg xs all _ ND A).
  change (oavg (length xs) xs (fun ys => if after i (ends ys) then 1 else 0)) with (oavg (length xs) xs (fun ys => b2r (after i (tree_end 4 Empty 0 ys)))).
  change (oavg (length xs) xs (fun ys => if after_at i p (ends ys) then 1 else 0)) with (oavg (length xs) xs (fun ys => b2r (after_at i p (tree_end 4 Empty 0 ys)))).
  rewrite (end_avg_all 4 i xs ND I). pose proof (end_avg 4 i (N.of_nat p) xs ND I ltac:(change (2 ^ N.of_nat 4)%N with 16%N; lia)) as E. rewrite Nat2N.id in E. rewrite E.
  pose proof (over_room 4 i). lra.
Qed.
(** Sixteen words always suffice. *)
Theorem C133_sixteen : forall ys, (16 <= length ys)%nat -> exists n p, ends ys = Some (n, p) /\ (n <= 16)%nat /\ (p < 16)%N.
Proof.
  intros ys L. unfold ends.
  assert (G : forall ys t n, fits 4 t -> N.of_nat n = size t -> (16 <= n + length ys)%nat -> exists m p, tree_end 4 t n ys = Some (m, p) /\ (m <= 16)%nat /\ (p < 16)%N).
  { clear. induction ys as [|y ys IH]; intros t n F S H; pose proof (fits_size 4 t F) as FS; change (2 ^ N.of_nat 4)%N with 16%N in FS.
    - cbn [length] in H. lia.
    - cbn [tree_end]. pose proof (add_size 4 y t F) as A. destruct (bst_add 4 y t) as [t'|p] eqn:E.
      + destruct A as [F' S']. apply IH; [exact F'|lia|cbn [length] in H; lia].
      + exists (Datatypes.S n), p. split; [reflexivity|]. split; [lia|]. apply (end_bound 4 [y] t n (Datatypes.S n) p). cbn [tree_end]. now rewrite E. }
  apply (G ys Empty 0%nat); [exact I|reflexivity|lia].
Qed.
Definition eleven : list N := [50; 10; 90; 30; 70; 20; 40; 60; 80; 5; 15]%N.
Example C133_ex : ends eleven = Some (11%nat, 4%N) /\ after 10 (ends eleven) = true /\ NoDup eleven /\ all_orders eleven (orders 11 eleven).
Proof.
  assert (N : NoDup eleven) by (apply fresh_ok; reflexivity). split; [reflexivity|]. split; [reflexivity|]. split; [exact N|]. apply (orders_all eleven N).
Qed.
Example C133_table_ex : Rabs (share (orders 11 eleven) (fun ys => after 10 (ends ys)) - 4338395 / 10 ^ 8) <= 23 / 10 ^ 7 /\
  4338395 / 10 ^ 8 + 22 / 10 ^ 7 <= share (orders 11 eleven) (fun ys => after 10 (ends ys)).
Proof.
  assert (E : entry target1 10 = 4338395 / 10 ^ 8) by (rewrite (entry_is target1 10 4338395 8 100000000 eq_refl eq_refl); lra). rewrite <- E.
  split; [apply (C133_table eleven)|apply (C133_eleven eleven)]; try apply C133_ex; cbn; lia.
Qed.
Example C133_slots_ex : share (orders 11 eleven) (fun ys => after_at 10 4 (ends ys)) = share (orders 11 eleven) (fun ys => after 10 (ends ys)) / 16.
Proof. apply (C133_slots eleven); try apply C133_ex; cbn; lia. Qed.

(** One tree of the program, whatever the rotation: over all sequences of 16
    words the share that takes i+1 words is the table's entry, to 2.3/10^6 and
    the chance of 136/2^w for equal words or a zero. *)
Lemma words_law (h : option (nat * N) -> bool) (c : R) w rot : (1 <= w <= 32)%N -> rot_defined w rot -> 0 <= c <= 1 ->
  (forall xs, NoDup xs -> length xs = 16%nat -> oavg 16 xs (fun ys => b2r (h (ends ys))) = c) ->
  Rabs (share (matrices w 16) (fun ws => h (one_tree w rot ws)) - c) <= 136 / 2 ^ N.to_nat w.
Proof.
  intros W D C H. set (T := IZR (2 ^ Z.of_N w)). assert (TW : 2 ^ N.to_nat w = T) by (unfold T; rewrite <- (N_nat_Z w), <- pow_IZR; reflexivity). rewrite TW. assert (TP : 0 < T) by (apply IZR_lt, Z.pow_pos_nonneg; lia).
  set (f := fun ws => b2r (h (one_tree w rot ws))). change (share (matrices w 16) (fun ws => h (one_tree w rot ws))) with (average (matrices w 16) f).
  assert (GS : lsumR (filter fresh (matrices w 16)) f = INR (length (filter fresh (matrices w 16))) * c).
  { apply (closed_sum 16).
    - apply NoDup_filter, matrices_nodup.
    - intros x X. apply filter_In in X. destruct X as [X F]. apply matrices_in in X. apply fresh_ok in F. tauto.
    - intros x y X P. apply filter_In in X. destruct X as [X F]. apply matrices_in in X. destruct X as [L B]. apply filter_In. split; [|now apply (fresh_perm x)].
      apply matrices_in. split; [rewrite <- (Permutation_length P); exact L|]. intros z Z. apply B. now apply (Permutation_in z (Permutation_sym P)).
    - intros x X. apply filter_In in X. destruct X as [X F]. apply matrices_in in X. destruct X as [L B]. apply fresh_ok in F. destruct F as [ND NZ].
      rewrite <- (H (map (turned w rot) x)).
      + rewrite oavg_map. apply oavg_ext; [exact L|]. intros ys P. unfold f. rewrite one_tree_ends; [reflexivity|exact W|exact D| |rewrite <- (Permutation_length P); lia].
        intros z Z. apply (Permutation_in z (Permutation_sym P)) in Z. split; [|now apply B]. destruct z; [contradiction|lia].
      + clear - ND B W D. induction x as [|a x IH]; [constructor|]. inversion ND; subst. cbn [map]. constructor; [|apply IH; [intros; apply B; now right|assumption]].
        intro K. apply in_map_iff in K. destruct K as (b & E & K). assert (b = a); [|congruence].
        apply (C48_injective_partial w b a rot (turned w rot a)); [lia|apply B; now right|apply B; now left|rewrite <- E; apply turned_ok; [exact W|exact D|apply B; now right]|apply turned_ok; [exact W|exact D|apply B; now left]].
      + now rewrite map_length. }
  rewrite lsumR_filter in GS. assert (GL : INR (length (filter fresh (matrices w 16))) = lsumR (matrices w 16) (fun ws => b2r (fresh ws))) by (rewrite <- (Rmult_1_r (INR _)), <- lsumR_const, lsumR_filter; reflexivity).
  rewrite GL in GS. pose proof (few_stale w 16) as FS. fold T in FS.
  assert (ML : INR (length (matrices w 16)) = T ^ 16) by apply matrices_length. assert (MP : 0 < T ^ 16) by (apply pow_lt; exact TP).
  assert (FR : lsumR (matrices w 16) (fun ws => b2r (fresh ws)) = T ^ 16 - lsumR (matrices w 16) (fun ws => b2r (negb (fresh ws)))).
  { rewrite <- ML. rewrite <- (Rmult_1_r (INR _)), <- lsumR_const. rewrite (lsumR_ext (matrices w 16) (fun _ => 1) (fun ws => b2r (fresh ws) + b2r (negb (fresh ws)))) by (intros x _; destruct (fresh x); cbn; lra). rewrite lsumR_plus. ring. }
  rewrite FR in GS. set (S := lsumR (matrices w 16) (fun ws => b2r (negb (fresh ws)))) in *.
  assert (U : lsumR (matrices w 16) f = lsumR (matrices w 16) (fun ws => if fresh ws then f ws else 0) + lsumR (matrices w 16) (fun ws => if fresh ws then 0 else f ws)).
  { rewrite <- lsumR_plus. apply lsumR_ext. intros x _. destruct (fresh x); lra. }
  assert (V : 0 <= lsumR (matrices w 16) (fun ws => if fresh ws then 0 else f ws) <= S).
  { split.
    - replace 0 with (lsumR (matrices w 16) (fun _ => 0)) at 1 by (rewrite lsumR_const; ring). apply lsumR_le. intros x _. unfold f. destruct (fresh x), (h (one_tree w rot x)); cbn; lra.
    - apply lsumR_le. intros x _. unfold f. destruct (fresh x), (h (one_tree w rot x)); cbn; lra. }
  unfold average. rewrite ML, U, GS. set (v := lsumR (matrices w 16) (fun ws => if fresh ws then 0 else f ws)) in *.
  replace (((T ^ 16 - S) * c + v) / T ^ 16 - c) with ((v - S * c) / T ^ 16) by (field; lra).
  assert (SB : S <= 136 / T * T ^ 16).
  { apply Rmult_le_reg_r with T; [exact TP|]. replace (136 / T * T ^ 16 * T) with (136 * T ^ 16) by (field; lra). replace 136 with (INR 16 * (INR 16 + 1) / 2); [exact FS|]. rewrite (INR_IZR_INZ 16). cbn [Z.of_nat Pos.of_succ_nat Pos.succ]. lra. }
  clearbody S v. unfold Rdiv at 1. rewrite Rabs_mult, (Rabs_pos_eq (/ T ^ 16)) by (left; apply Rinv_0_lt_compat; exact MP).
  apply Rmult_le_reg_r with (T ^ 16); [exact MP|]. rewrite Rmult_assoc, Rinv_l, Rmult_1_r by lra. eapply Rle_trans; [|exact SB]. apply Rabs_le. nra.
Qed.
Lemma b2r_bound b : 0 <= b2r b <= 1.
Proof. destruct b; cbn; lra. Qed.
Lemma oavg_bound n (xs : list N) (h : list N -> bool) : length xs = n -> 0 <= oavg n xs (fun ys => b2r (h ys)) <= 1.
Proof.
  intro L. rewrite oavg_orders by exact L. unfold average. rewrite orders_length by exact L. pose proof (INR_fact_lt_0 n) as P.
  assert (B : 0 <= lsumR (orders n xs) (fun ys => b2r (h ys)) <= INR (fact n)).
  { rewrite <- (orders_length n xs L). induction (orders n xs) as [|x l IH]; [cbn; lra|]. cbn [lsumR length]. rewrite S_INR. pose proof (b2r_bound (h x)). lra. }
  split; [apply Rmult_le_pos; [apply B|left; now apply Rinv_0_lt_compat]|]. apply Rmult_le_reg_r with (INR (fact n)); [exact P|]. unfold Rdiv. rewrite Rmult_assoc, Rinv_l by lra. lra.
Qed.
Definition sixteen : list N := map N.of_nat (seq 1 16).
Lemma sixteen_ok : NoDup sixteen /\ length sixteen = 16%nat.
Proof. split; [apply fresh_ok; reflexivity|reflexivity]. Qed.
Theorem C133_words : forall w rot i, (1 <= w <= 32)%N -> rot_defined w rot -> (i < 16)%nat ->
  Rabs (share (matrices w 16) (fun ws => after i (one_tree w rot ws)) - entry target1 i) <= 23 / 10 ^ 7 + 136 / 2 ^ N.to_nat w.
Proof.
  intros w rot i W D I. assert (E : forall xs, NoDup xs -> length xs = 16%nat -> oavg 16 xs (fun ys => b2r (after i (ends ys))) = room 4 i - room 4 (S i)).
  { intros xs ND L. rewrite <- L. apply end_avg_all; [exact ND|lia]. }
  destruct sixteen_ok as [ND L]. pose proof (oavg_bound 16 sixteen (fun ys => after i (ends ys)) L) as B. cbv beta in B. rewrite (E _ ND L) in B.
  pose proof (words_law (after i) _ w rot W D B E) as X. pose proof (table1_entry i ltac:(lia)) as Y.
  replace (share (matrices w 16) (fun ws => after i (one_tree w rot ws)) - entry target1 i) with (share (matrices w 16) (fun ws => after i (one_tree w rot ws)) - (room 4 i - room 4 (S i)) + (room 4 i - room 4 (S i) - entry target1 i)) by ring.
  eapply Rle_trans; [apply Rabs_triang|]. lra.
Qed.
Theorem C133_words_slots : forall w rot i p, (1 <= w <= 32)%N -> rot_defined w rot -> (i < 16)%nat -> (p < 16)%nat ->
  Rabs (share (matrices w 16) (fun ws => after_at i p (one_tree w rot ws)) - entry target1 i / 16) <= 15 / 10 ^ 8 + 136 / 2 ^ N.to_nat w.
Proof.
  intros w rot i p W D I P. assert (E : forall xs, NoDup xs -> length xs = 16%nat -> oavg 16 xs (fun ys => b2r (after_at i p (ends ys))) = over 4 (S i)).
  { intros xs ND L. rewrite <- L. pose proof (end_avg 4 i (N.of_nat p) xs ND ltac:(lia) ltac:(change (2 ^ N.of_nat 4)%N with 16%N; lia)) as E. rewrite Nat2N.id in E. exact E. }
  destruct sixteen_ok as [ND L]. pose proof (oavg_bound 16 sixteen (fun ys => after_at i p (ends ys)) L) as B. cbv beta in B. rewrite (E _ ND L) in B.
  pose proof (words_law (after_at i p) _ w rot W D B E) as X. pose proof (table1_entry i ltac:(lia)) as Y. rewrite <- over_room in Y.
  set (s := share _ _) in *. clearbody s. generalize dependent (136 / 2 ^ N.to_nat w). intros r X. generalize dependent (over 4 (S i)). intros o E B X Y. apply abs_bounds in X, Y. apply Rabs_le. lra.
Qed.
Example C133_words_ex : rot_defined 31 0 /\ Rabs (share (matrices 31 16) (fun ws => after 5 (one_tree 31 0 ws)) - 1 / 5) <= 24 / 10 ^ 7.
Proof.
  assert (R : rot_defined 31 0) by (unfold rot_defined; lia). split; [exact R|]. pose proof (C133_words 31 0 5 ltac:(lia) R ltac:(lia)) as H.
  rewrite (entry_is target1 5 2 1 10 eq_refl eq_refl) in H. replace (2 ^ N.to_nat 31) with 2147483648 in H by (change (N.to_nat 31) with 31%nat; ring). replace (1 / 5) with (2 / 10) by lra. eapply Rle_trans; [exact H|]. lra.
Qed.
Example C133_one_tree_ex : one_tree 31 2 [50; 10; 90; 30; 70; 20; 40; 60; 80; 5; 15; 1; 2; 3; 4; 6]%N = Some (11%nat, 4%N).
Proof. vm_compute. reflexivity. Qed.

(** ** C134: the p-values *)

(** From 20 samples on there is a first and a last bin as for the other test. *)
Theorem C134_bins : forall m, 20 <= m -> exists a b, bins target1 m a b.
Proof.
  intros m M. apply (bins_exist target1 6); [vm_compute; reflexivity|cbn; lia|rewrite (entry_is target1 0 0 0 1 eq_refl eq_refl); lra|lra|]. rewrite (entry_is target1 6 20634921 8 100000000 eq_refl eq_refl). lra.
Qed.
(** With the default of 15,000,000 samples these are the bins of 5 and 16 words. *)
Example C134_bins_ex : bins target1 15000000 4 15.
Proof.
  apply (bins_at target1 6); [vm_compute; reflexivity|cbn; lia|lra|lia|cbn; lia|change (4 - 1)%nat with 3%nat; rewrite (entry_is target1 3 0 0 1 eq_refl eq_refl); lra|rewrite (entry_is target1 4 13333333 8 100000000 eq_refl eq_refl); lra|rewrite (entry_is target1 15 168 7 10000000 eq_refl eq_refl); lra|]. intros _. rewrite (entry_is target1 16 0 0 1 eq_refl eq_refl). lra.
Qed.
(** The p-values, in exact arithmetic, for nonzero words of 7 to 31 bits: the
    trees are those of C47; the first compares the bins from the first to the one
    before the last with the table, the second all slots with the number of
    samples divided by 16 and rounded down. *)
Theorem C134_pvalues : forall Q g w m c a b, (7 <= w < 32)%N -> (forall k, (0 < g k < 2 ^ w)%N) -> bins target1 (INR m) a b -> (4 <= m)%nat ->
  exists rs c', Forest g w (rot_at m) 0 c rs c' /\ length rs = m /\
  let results := map (fun r => (snd r, fst r)) rs in
  dab_filltree reals Q g w m c =
  Ok (Q ((INR (b - a) - 1) / 2) (bins_chisq target1 (INR m) a b results / 2),
      Some (Q ((16 - 1) / 2) (pearson (map (fun p => (how_many (ended p) results, INR (m / 16))) (seq 0 16)) / 2))).
Proof.
  intros Q g w m c a b [W1 W2] G B M4.
  destruct (C47_filltree_partial g w m c W1 W2 G M4) as (rs & counts & pos & c' & E & F & L & LC & TC & LP & TP & BD).
  exists rs, c'. split; [exact F|]. split; [exact L|]. cbv zeta. set (results := map (fun r => (snd r, fst r)) rs).
  assert (FP : forall r, In r rs -> (1 <= snd r)%nat).
  { clear - F. induction F as [|j c xs p rs c' RX FI F IH]; intros r [].
    - subst r. cbn [snd]. destruct FI as (ys & y & t & -> & _). rewrite app_length. cbn. lia.
    - auto. }
  unfold dab_filltree. rewrite E. cbn [bind]. rewrite (tree_pvalue_ok Q target1 counts m a b results B).
  - cbn [bind]. unfold filltree_positions. change (20 <? 32 / 2)%N with false. cbn match. change (32 / 2)%N with 16%N. change (N.to_nat 16) with 16%nat. change (Z.of_N 16) with (Z.of_nat 16).
    change (nint reals) with IZR. change (num reals) with R in *.
    assert (LM : length (map (fun n => IZR (Z.of_N n)) pos) = 16%nat) by (rewrite map_length; exact LP).
    pose proof (C105_pearson Q (map (fun n => IZR (Z.of_N n)) pos) (repeat (IZR (Z.of_N (N.of_nat m / 16))) 16) (eq_trans LM (eq_sym (repeat_length _ 16)))) as X. change (num reals) with R in X. rewrite LM in X. rewrite X. cbn [bind]. replace (INR 16) with 16 by (rewrite (INR_IZR_INZ 16); reflexivity).
    match goal with |- context [pearson ?a] => match goal with |- context [pearson (map ?h (seq 0 16))] => replace a with (map h (seq 0 16)); [reflexivity|] end end. symmetry. apply (nth_ext _ _ (IZR (Z.of_N 0), IZR (Z.of_N (N.of_nat m / 16))) (IZR (Z.of_N 0), IZR (Z.of_N (N.of_nat m / 16)))); [rewrite combine_length, LM, repeat_length, map_length, seq_length; reflexivity|].
    rewrite combine_length, LM, repeat_length. intros p P. change (Nat.min 16 16) with 16%nat in P. rewrite combine_nth by (rewrite LM, repeat_length; reflexivity). rewrite (map_nth (fun n => IZR (Z.of_N n))), nth_repeat.
    rewrite (nth_indep (map _ (seq 0 16)) _ ((fun p => (how_many (ended p) results, INR (m / 16))) 0%nat)) by (rewrite map_length, seq_length; exact P). rewrite (map_nth (fun p => (how_many (ended p) results, INR (m / 16)))), seq_nth by exact P. cbn [Nat.add]. f_equal.
    + unfold how_many, results. do 2 f_equal. rewrite (proj2 TP) by lia. rewrite !countp_map. apply countp_ext. intros r _. unfold ended. cbn [fst snd]. destruct (Z.eqb_spec (Z.of_N (fst r)) (Z.of_nat p)), (N.eqb_spec (fst r) (N.of_nat p)); try reflexivity; exfalso; lia.
    + rewrite INR_IZR_INZ. f_equal. rewrite N2Z.inj_div, nat_N_Z, Nat2Z.inj_div. reflexivity.
  - exact LC.
  - intros i I. change (length target1) with 20%nat in I. rewrite (proj2 TC) by lia. unfold results. rewrite !countp_map. apply countp_ext. intros r R. pose proof (FP r R). unfold took. cbn [fst].
    destruct (Z.eqb_spec (Z.of_nat (snd r) - 1) (Z.of_nat i)), (Nat.eqb_spec (snd r) (S i)); try reflexivity; exfalso; lia.
Qed.
Example C134_pvalues_ex : exists rs c', Forest (fun k => N.of_nat k mod 1000 + 1)%N 31 (rot_at (Z.to_nat 15000000)) 0 0 rs c' /\ length rs = Z.to_nat 15000000.
Proof.
  destruct (C134_pvalues (fun a x => a + x) (fun k => N.of_nat k mod 1000 + 1)%N 31 (Z.to_nat 15000000) 0 4 15) as (rs & c' & F & L & _).
  - lia.
  - intro k. pose proof (N.mod_lt (N.of_nat k) 1000 ltac:(discriminate)). change (2 ^ 31)%N with 2147483648%N. lia.
  - replace (INR (Z.to_nat 15000000)) with 15000000 by (rewrite INR_IZR_INZ, Z2Nat.id by lia; reflexivity). exact C134_bins_ex.
  - lia.
  - exists rs, c'. split; assumption.
Qed.
(** C132 for this test: up to 19 samples no bin expects four trees (and below
    four samples the test divides by zero, C47_few_refuted). *)
Theorem C132_first_refuted : forall Q g w m c, (7 <= w < 32)%N -> (forall k, (0 < g k < 2 ^ w)%N) -> (4 <= m <= 19)%nat -> dab_filltree reals Q g w m c = UB "index".
Proof.
  intros Q g w m c [W1 W2] G [M4 M]. destruct (C47_filltree_partial g w m c W1 W2 G M4) as (rs & counts & pos & c' & E & _).
  unfold dab_filltree. rewrite E. cbn [bind]. unfold tree_pvalue. rewrite range_none; [reflexivity|].
  intros i I. pose proof (below_peak target1 6 i ltac:(vm_compute; reflexivity) ltac:(cbn; lia) I) as P.
  assert (E6 : entry target1 6 = 20634921 / 100000000) by (rewrite (entry_is target1 6 20634921 8 100000000 eq_refl eq_refl); lra). assert (INR m <= 19) by (apply le_INR in M; rewrite (INR_IZR_INZ 19) in M; exact M). pose proof (pos_INR m).
  assert (0 <= entry target1 6) by lra. assert (INR m * entry target1 i <= INR m * entry target1 6) by (apply Rmult_le_compat_l; assumption). nra.
Qed.
Example C132_first_ex : dab_filltree reals (fun a x => a + x) (fun k => N.of_nat k mod 1000 + 1)%N 31 10 5 = UB "index".
Proof.
  apply C132_first_refuted; [lia| |lia]. intro k. pose proof (N.mod_lt (N.of_nat k) 1000 ltac:(discriminate)). change (2 ^ 31)%N with 2147483648%N. lia.
Qed.

Print Assumptions C133_table.
Print Assumptions C133_eleven.
Print Assumptions C133_slots.
Print Assumptions C133_sixteen.
Print Assumptions C133_words.
Print Assumptions C133_words_slots.
Print Assumptions C134_bins.
Print Assumptions C134_pvalues.
Print Assumptions C132_first_refuted.
