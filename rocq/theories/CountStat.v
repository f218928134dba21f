(** The count-the-1s tests compute Pearson's statistics of their words. *)
From Coq Require Import Lia Lra.
From Verif Require Export CountLaw.
From Verif Require Import BaseLemmas TallyLemmas CountOnesLemmas OpermReal DnaBlock RunsArcs VtestArithLemmas VtestLaw WordCode PropCountOnes.
Open Scope R_scope.

Lemma letter_values : letter_share 0 = 37 / 256 /\ letter_share 1 = 56 / 256 /\ letter_share 2 = 70 / 256 /\ letter_share 3 = 56 / 256 /\ letter_share 4 = 37 / 256.
Proof.
  assert (G : forall y k, length (filter (fun b => (letter (N.of_nat b) =? y)%N) (seq 0 256)) = N.to_nat k -> letter_share y = IZR (Z.of_N k) / 256).
  { intros y k E. unfold letter_share. rewrite E, INR_IZR_INZ, N_nat_Z. reflexivity. }
  repeat split; [apply (G 0%N 37%N)|apply (G 1%N 56%N)|apply (G 2%N 70%N)|apply (G 3%N 56%N)|apply (G 4%N 37%N)]; vm_compute; reflexivity.
Qed.
Lemma psA_letter y : (y < 5)%N -> aget (psA reals) (Z.of_N y) = Ok (letter_share y).
Proof.
  intro Y. destruct letter_values as (E0 & E1 & E2 & E3 & E4). assert (D : y = 0%N \/ y = 1%N \/ y = 2%N \/ y = 3%N \/ y = 4%N) by lia.
  assert (G : forall a b c d e : R, aget [a; b; c; d; e] (Z.of_N y) = Ok (nth (N.to_nat y) [a; b; c; d; e] 0)) by (intros; destruct D as [->|[->|[->|[->| ->]]]]; reflexivity).
  unfold psA. cbn [nlit reals]. rewrite G. f_equal. change (10 ^ 9)%Z with 1000000000%Z. clear G.
  destruct D as [->|[->|[->|[->| ->]]]]; rewrite ?E0, ?E1, ?E2, ?E3, ?E4; cbn [nth N.to_nat]; unfold Pos.to_nat; cbn [Pos.iter_op Nat.add nth]; lra.
Qed.
Lemma expected_share k : forall (y : R) v, expectedA reals k y v = Ok (y * word_share k v).
Proof.
  induction k as [|k IH]; intros y v; [cbn; f_equal; as_reals; ring|]. cbn [expectedA word_share].
  rewrite psA_letter by (apply N.mod_upper_bound; discriminate). cbn [bind]. rewrite IH. f_equal. cbn [nmul reals]. as_reals. ring.
Qed.
Definition cell_of (k n : nat) (xs : list N) (j : nat) : R * R := (INR (N.to_nat (nth j xs 0%N)), INR n * word_share k (N.of_nat j)).
Lemma of_N_real x : of_N reals x = INR (N.to_nat x).
Proof. unfold of_N. cbn [nint reals]. rewrite INR_IZR_INZ, N_nat_Z. reflexivity. Qed.
Lemma cells_table k n : forall xs i, cellsA reals k n i xs = Ok (map (fun j => (INR (N.to_nat (nth j xs 0%N)), INR n * word_share k (i + N.of_nat j))) (seq 0 (length xs))).
Proof.
  induction xs as [|x xs IH]; intro i; [reflexivity|]. cbn [cellsA length seq map nth]. rewrite expected_share. cbn [bind]. rewrite IH. cbn [bind].
  rewrite !of_N_real, Nat2N.id, N.add_0_r. f_equal. f_equal. rewrite <- seq_shift, map_map. apply map_ext. intro j. cbn [nth]. f_equal. f_equal. f_equal. lia.
Qed.
Lemma cells_all k n xs : cellsA reals k n 0 xs = Ok (map (cell_of k n xs) (seq 0 (length xs))).
Proof. rewrite cells_table. f_equal. Qed.
Lemma letter_share_least y : (y < 5)%N -> 37 / 256 <= letter_share y.
Proof.
  intro Y. destruct letter_values as (E0 & E1 & E2 & E3 & E4). assert (D : y = 0%N \/ y = 1%N \/ y = 2%N \/ y = 3%N \/ y = 4%N) by lia.
  destruct D as [->|[->|[->|[->| ->]]]]; lra.
Qed.
Lemma word_share_least k : forall v, (37 / 256) ^ k <= word_share k v.
Proof.
  induction k as [|k IH]; intro v; [cbn; lra|]. cbn [pow word_share]. apply Rmult_le_compat; [lra|apply pow_le; lra|apply letter_share_least, N.mod_upper_bound; discriminate|apply IH].
Qed.
Lemma word_share_sum k : rsum (5 ^ k) (fun v => word_share k (N.of_nat v)) = 1.
Proof.
  induction k as [|k IH]; [cbn; ring|]. rewrite Nat.pow_succ_r', Nat.mul_comm, rsum_rows. rewrite <- IH. apply rsum_ext. intros i _.
  rewrite (rsum_ext 5 _ (fun j => word_share k (N.of_nat i) * letter_share (N.of_nat j))).
  - rewrite <- rsum_scale. cbn [rsum]. destruct letter_values as (E0 & E1 & E2 & E3 & E4). cbn [N.of_nat Pos.of_succ_nat Pos.succ]. rewrite E0, E1, E2, E3, E4. lra.
  - intros j J. cbn [word_share]. rewrite Nat2N.inj_add, Nat2N.inj_mul. change (N.of_nat 5) with 5%N.
    rewrite (N.add_comm (N.of_nat i * 5)), N.mod_add, N.mod_small by lia. rewrite N.add_comm, N.div_add_l, N.div_small by lia. rewrite N.add_0_r. ring.
Qed.
Lemma Rge_true a b : b <= a -> Rge_bool a b = true.
Proof. intro H. unfold Rge_bool. destruct (Rle_dec b a); [reflexivity|contradiction]. Qed.
Lemma Rge_false a b : a < b -> Rge_bool a b = false.
Proof. intro H. unfold Rge_bool. destruct (Rle_dec b a); [lra|reflexivity]. Qed.
Lemma large_yes (c : R * R) : 5 <= snd c -> largeA reals Rge_bool 5 c = true.
Proof. exact (Rge_true (snd c) 5). Qed.
Lemma large_no (c : R * R) : snd c < 5 -> largeA reals Rge_bool 5 c = false.
Proof. exact (Rge_false (snd c) 5). Qed.
Lemma used_all (cells : list (R * R)) : (forall c, In c cells -> 5 <= snd c) -> usedA reals Rge_bool 5 cells = cells.
Proof.
  intro G. assert (F : filter (largeA reals Rge_bool 5) cells = cells /\ filter (fun c => negb (largeA reals Rge_bool 5 c)) cells = []).
  { induction cells as [|c cells IH]; [split; reflexivity|]. destruct IH as (I1 & I2); [intros; apply G; now right|]. cbn [filter].
    rewrite (large_yes c) by (apply G; now left). cbn [negb]. rewrite I1, I2. now split. }
  destruct F as (F1 & F2). unfold usedA. rewrite F1, F2. cbn [length Nat.eqb negb andb]. apply app_nil_r.
Qed.
Lemma used_none (cells : list (R * R)) : (forall c, In c cells -> snd c < 5) -> lsumR cells snd < 5 -> usedA reals Rge_bool 5 cells = [].
Proof.
  intros G S. assert (F : filter (largeA reals Rge_bool 5) cells = [] /\ filter (fun c => negb (largeA reals Rge_bool 5 c)) cells = cells).
  { clear S. induction cells as [|c cells IH]; [split; reflexivity|]. destruct IH as (I1 & I2); [intros; apply G; now right|]. cbn [filter].
    rewrite (large_no c) by (apply G; now left). cbn [negb]. rewrite I1, I2. now split. }
  destruct F as (F1 & F2). unfold usedA. rewrite F1, F2. rewrite (large_no (bundleA reals cells)); [now rewrite Bool.andb_false_r|].
  unfold bundleA. cbn [snd]. rewrite dsum_sum, lsumR_map. exact S.
Qed.

Definition stat (k n : nat) (xs : list N) : R := lsumR (seq 0 (length xs)) (fun j => pearson (cell_of k n xs j)).
Lemma vtest_large k n xs : (N.of_nat (length xs) < 2 ^ 31)%N -> 5 <= INR n * (37 / 256) ^ k -> exists u d,
  Vtest_evalA reals Rge_bool (map (cell_of k n xs) (seq 0 (length xs))) (nint reals 5) 0 = Ok (u, stat k n xs, d).
Proof.
  intros L G. rewrite Vtest_eval_ok by (rewrite map_length, seq_length; assumption). do 2 eexists. f_equal. f_equal. f_equal.
  change (nint reals 5) with 5. rewrite used_all.
  - unfold chisq_ofA. rewrite chisq_sum. change (nint reals 0) with 0. rewrite Rplus_0_l, lsumR_map. reflexivity.
  - intros c C. apply in_map_iff in C. destruct C as (j & <- & _). cbn [cell_of snd]. eapply Rle_trans; [exact G|]. apply Rmult_le_compat_l; [apply pos_INR|apply word_share_least].
Qed.
Lemma vtest_small k n xs : length xs = (5 ^ k)%nat -> (N.of_nat (length xs) < 2 ^ 31)%N -> (n <= 4)%nat -> exists u d,
  Vtest_evalA reals Rge_bool (map (cell_of k n xs) (seq 0 (length xs))) (nint reals 5) 0 = Ok (u, 0, d).
Proof.
  intros L L' G. rewrite Vtest_eval_ok by (rewrite map_length, seq_length; assumption). do 2 eexists. f_equal. f_equal. f_equal.
  change (nint reals 5) with 5. assert (N4 : INR n <= 4) by (apply le_INR in G; replace (INR 4) with 4 in G by (cbn; ring); exact G). pose proof (pos_INR n).
  assert (S : lsumR (map (cell_of k n xs) (seq 0 (length xs))) snd = INR n).
  { rewrite lsumR_map, lsumR_seq, L. cbn [cell_of snd]. rewrite <- rsum_scale, word_share_sum. ring. }
  rewrite used_none; [reflexivity| |lra].
  intros c C. assert (P : forall l : list (R * R), (forall c, In c l -> 0 <= snd c) -> forall c, In c l -> snd c <= lsumR l snd).
  { clear. induction l as [|a l IH]; intros Q c [].
    - subst. cbn [lsumR]. assert (0 <= lsumR l snd); [|lra]. clear - Q. induction l as [|b l IH]; cbn [lsumR]; [lra|].
      assert (0 <= snd b) by (apply Q; right; now left). assert (0 <= lsumR l snd); [apply IH; intros x [->|X]; apply Q; [now left|right; now right]|lra].
    - cbn [lsumR]. assert (0 <= snd a) by (apply Q; now left). assert (snd c <= lsumR l snd) by (apply IH; [intros; apply Q; now right|assumption]). lra. }
  apply P in C; [lra|]. intros d D. apply in_map_iff in D. destruct D as (j & <- & _). cbn [cell_of snd]. apply Rmult_le_pos; [exact H|].
  eapply Rle_trans; [|apply word_share_least]. apply pow_le. lra.
Qed.
Definition real_xtest (x y s : R) : Xtest reals := {| xt_x := (x : num reals); xt_y := (y : num reals); xt_sigma := (s : num reals) |}.
Lemma count_p n xs4 xs5 : length xs4 = (5 ^ 4)%nat -> length xs5 = (5 ^ 5)%nat -> (79280 <= N.of_nat n)%N ->
  count_xtest reals Rge_bool n xs4 xs5 = Ok (real_xtest (stat 5 n xs5 - stat 4 n xs4) 2500 (sqrt 5000)).
Proof.
  intros L4 L5 G. assert (G' : 79280 <= INR n). { rewrite INR_IZR_INZ. apply (IZR_le 79280). lia. }
  unfold count_xtest. rewrite !cells_all. cbn [bind].
  destruct (vtest_large 4 n xs4) as (u & d & ->); [rewrite L4; vm_compute; reflexivity|cbn [pow]; lra|]. cbn [bind].
  destruct (vtest_large 5 n xs5) as (u' & d' & ->); [rewrite L5; vm_compute; reflexivity|cbn [pow]; lra|]. cbn [bind]. reflexivity.
Qed.
Lemma count_few n xs4 xs5 : length xs4 = (5 ^ 4)%nat -> length xs5 = (5 ^ 5)%nat -> (n <= 4)%nat ->
  count_xtest reals Rge_bool n xs4 xs5 = Ok (real_xtest 0 2500 (sqrt 5000)).
Proof.
  intros L4 L5 G. unfold count_xtest. rewrite !cells_all. cbn [bind].
  destruct (vtest_small 4 n xs4) as (u & d & ->); [exact L4|rewrite L4; vm_compute; reflexivity|exact G|]. cbn [bind].
  destruct (vtest_small 5 n xs5) as (u' & d' & ->); [exact L5|rewrite L5; vm_compute; reflexivity|exact G|]. cbn [bind]. f_equal.
  change (real_xtest (0 - 0) 2500 (sqrt 5000) = real_xtest 0 2500 (sqrt 5000)). now rewrite Rminus_0_r.
Qed.
Lemma countp_filter {A} (f : A -> bool) l : N.to_nat (countp f l) = length (filter f l).
Proof. induction l as [|a l IH]; [reflexivity|]. cbn [countp filter]. rewrite N2Nat.inj_add, IH. destruct (f a); reflexivity. Qed.
Lemma stat_words k n xs word : length xs = (5 ^ k)%nat -> tallies xs (map (fun t => Z.of_N (word t)) (seq 0 n)) -> stat k n xs = words_chisq k n word.
Proof.
  intros L (_ & T). unfold stat, words_chisq. rewrite lsumR_seq, L. apply rsum_ext. intros j J. rewrite <- L in J. unfold pearson, cell_of. cbn [fst snd].
  replace (INR (N.to_nat (nth j xs 0%N))) with (how_often n word j); [unfold Rdiv; ring|].
  rewrite (T j J), countp_filter, VtestLaw.filter_map, map_length. unfold how_often. f_equal. f_equal. apply filter_ext. intro t.
  destruct (N.eqb_spec (word t) (N.of_nat j)) as [E|E]; destruct (Z.eqb_spec (Z.of_N (word t)) (Z.of_nat j)) as [F|F]; try reflexivity; lia.
Qed.
