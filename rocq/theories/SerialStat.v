(** sts_serial computes psi-square and its differences. *)
From Coq Require Import Lia Lra.
From Verif Require Export SerialLaw.
From Verif Require Import BaseLemmas TallyLemmas OpermReal RunsArcs VtestLaw WordCode CountStat PropSerial.
Open Scope R_scope.

Lemma often_tally n word xs j : (j < length xs)%nat -> tallies xs (map (fun t => Z.of_N (word t)) (seq 0 n)) -> how_often n word j = INR (N.to_nat (nth j xs 0%N)).
Proof.
  intros J (_ & T). rewrite (T j J), countp_filter, VtestLaw.filter_map, map_length. unfold how_often. f_equal. f_equal. apply filter_ext. intro t.
  destruct (N.eqb_spec (word t) (N.of_nat j)) as [E|E]; destruct (Z.eqb_spec (Z.of_N (word t)) (Z.of_nat j)) as [F|F]; try reflexivity; lia.
Qed.
Section Serial.
Variable l : list N.
Hypothesis some : l <> [].
Hypothesis range : forall x, In x l -> (x < 2 ^ 32)%N.
Hypothesis few : (N.of_nat (length l) < 2 ^ 27)%N.
Definition counted (m : nat) (xs : list N) : Prop :=
  length xs = (2 ^ m)%nat /\ forall j, (j < 2 ^ m)%nat -> INR (N.to_nat (nth j xs 0%N)) = how_often (32 * length l) (cyclic_window l m) j.
Lemma one_table w0 m : (1 <= m <= 16)%nat -> exists xs, serial_freq w0 (N.of_nat m) l = Ok xs /\ counted m xs.
Proof.
  intro Hm. destruct (C41_frequencies_partial w0 (N.of_nat m) l ltac:(lia) ltac:(lia) range few) as (xs & E & L & T). exists xs. split; [exact E|].
  assert (L' : length xs = (2 ^ m)%nat) by (rewrite L, N2Nat.inj_pow, Nat2N.id; reflexivity). split; [exact L'|]. intros j J. symmetry. rewrite <- L' in J.
  rewrite Nat2N.id in T. exact (often_tally _ (fun t => window_value (cyclic_msb_bit l) (N.of_nat t) m) xs j J T).
Qed.
Lemma tables w0 k : forall m, (1 <= m)%nat -> (m + k <= 17)%nat -> exists tabs, serial_tables w0 l k (N.of_nat m) = Ok tabs /\ length tabs = k /\
  forall i, (i < k)%nat -> counted (m + i) (nth i tabs []).
Proof.
  induction k as [|k IH]; intros m M1 MK; [exists []; repeat split; intros; lia|].
  destruct (one_table w0 m ltac:(lia)) as (xs & E & C). destruct (IH (S m) ltac:(lia) ltac:(lia)) as (tabs & F & L & G).
  cbn [serial_tables]. rewrite E. cbn [bind]. replace (N.of_nat m + 1)%N with (N.of_nat (S m)) by lia. rewrite F. cbn [bind]. exists (xs :: tabs).
  split; [reflexivity|]. split; [cbn; lia|]. intros [|i] I; cbn [nth]; [now rewrite Nat.add_0_r|]. replace (m + S i)%nat with (S m + i)%nat by lia. apply G. lia.
Qed.
Lemma fold_squares xs : forall a, fold_left (fun s x => nadd reals s (nmul reals (of_N reals x) (of_N reals x))) xs a = a + lsumR xs (fun x => INR (N.to_nat x) ^ 2).
Proof.
  induction xs as [|x xs IH]; intro a; cbn [fold_left lsumR]; [symmetry; apply Rplus_0_r|]. rewrite IH, of_N_real. cbn [nadd nmul reals]. as_reals. ring.
Qed.
Lemma lsumR_nth (xs : list N) F : lsumR xs F = rsum (length xs) (fun j => F (nth j xs 0%N)).
Proof.
  induction xs as [|x xs IH] using rev_ind; [reflexivity|]. rewrite VtestLaw.lsumR_app, app_length, Nat.add_1_r, IH. cbn [rsum lsumR]. f_equal.
  - apply rsum_ext. intros j J. now rewrite app_nth1.
  - rewrite app_nth2, Nat.sub_diag by lia. cbn [nth]. ring.
Qed.
Lemma pow2_real m : pow2 reals (N.of_nat m) = 2 ^ m.
Proof. unfold pow2. cbn [npow nint reals]. rewrite nat_N_Z. symmetry. apply pow_powerRZ. Qed.
Lemma bsize_real : mul32 (N.of_nat (length l)) 32 = N.of_nat (32 * length l).
Proof. unfold mul32. rewrite w32_small; [lia|]. change (2 ^ 32)%N with (2 ^ 27 * 32)%N. lia. Qed.
Lemma psi2_real m xs : (1 <= m)%nat -> counted m xs -> serial_psi2 reals (mul32 (N.of_nat (length l)) 32) (N.of_nat m) xs = psi_square l m.
Proof.
  intros M (L & C). unfold serial_psi2, psi_square. rewrite bsize_real, fold_squares, lsumR_nth, pow2_real, of_N_real, Nat2N.id, bits_in_INR, L.
  destruct m as [|m']; [lia|]. set (m := S m') in *. cbn [nsub nmul ndiv nint reals]. rewrite (rsum_ext _ _ (fun v => how_often (32 * length l) (cyclic_window l m) v ^ 2)) by (intros j J; now rewrite C).
  as_reals. unfold Rdiv. ring.
Qed.
Variable P Q : R -> R -> R.
Lemma aget_psi m : (m < 17)%nat -> aget (map (psi_square l) (seq 0 17)) (Z.of_N (N.of_nat m)) = Ok (psi_square l m).
Proof.
  intro H. rewrite (aget_ok _ _ (psi_square l 0)); [|lia|rewrite map_length, seq_length; lia]. f_equal. rewrite map_nth, nat_N_Z, Nat2Z.id, seq_nth by exact H. reflexivity.
Qed.
Lemma pvalues k : forall m, (2 <= m)%nat -> (m + k <= 17)%nat -> serial_pvalues reals Q (map (psi_square l) (seq 0 17)) k (N.of_nat m) = Ok (flat_map (serial_pair Q l) (seq m k)).
Proof.
  induction k as [|k IH]; intros m M MK; [reflexivity|]. cbn [serial_pvalues seq flat_map].
  replace (N.of_nat m - 1)%N with (N.of_nat (m - 1)) by lia. replace (N.of_nat m - 2)%N with (N.of_nat (m - 2)) by lia. replace (N.of_nat m - 3)%N with (N.of_nat (m - 3)) by lia.
  rewrite !aget_psi by lia. cbn [bind]. replace (N.of_nat m + 1)%N with (N.of_nat (S m)) by lia. rewrite IH by lia. cbn [bind]. rewrite !pow2_real.
  unfold serial_pair, del_psi, del2_psi. destruct (N.ltb_spec 2 (N.of_nat m)); destruct (Nat.ltb_spec 2 m); try lia; reflexivity.
Qed.
Lemma psi_table tabs : length tabs = 16%nat -> (forall i, (i < 16)%nat -> counted (1 + i) (nth i tabs [])) ->
  nint reals 0 :: map (fun mf => serial_psi2 reals (mul32 (N.of_nat (length l)) 32) (N.of_nat (fst mf)) (snd mf)) (combine (seq 1 16) tabs) = map (psi_square l) (seq 0 17).
Proof.
  intros L C. change (map (psi_square l) (seq 0 17)) with (0 :: map (psi_square l) (seq 1 16)). f_equal.
  apply (nth_ext _ _ 0 0); [rewrite !map_length, combine_length, !seq_length, L; reflexivity|]. intros i I. rewrite map_length, combine_length, seq_length, L in I. change (Nat.min 16 16) with 16%nat in I.
  rewrite (nth_indep _ 0 (serial_psi2 reals (mul32 (N.of_nat (length l)) 32) (N.of_nat (fst (0%nat, @nil N))) (snd (0%nat, @nil N)))) by (rewrite map_length, combine_length, seq_length, L; exact I).
  rewrite (map_nth (fun mf => serial_psi2 reals (mul32 (N.of_nat (length l)) 32) (N.of_nat (fst mf)) (snd mf))), combine_nth by (rewrite seq_length, L; reflexivity). cbn [fst snd].
  rewrite (nth_indep _ 0 (psi_square l 0)) by (rewrite map_length, seq_length; exact I). rewrite map_nth, !seq_nth by exact I. apply psi2_real; [lia|]. now apply C.
Qed.
Lemma zeros_ones : how_often (32 * length l) (cyclic_window l 1) 0 + how_often (32 * length l) (cyclic_window l 1) 1 = bits_in l.
Proof. rewrite bits_in_INR, <- (windows_total l 1). cbn [Nat.pow Nat.mul Nat.add rsum]. ring. Qed.
Theorem serial_ok w0 : sts_serial reals P Q w0 l = Ok (serial_list P Q l).
Proof.
  unfold sts_serial. destruct (tables w0 16 1 ltac:(lia) ltac:(lia)) as (tabs & E & L & C). change (N.of_nat 1) with 1%N in E. rewrite E. cbn [bind]. rewrite (psi_table tabs L C).
  rewrite (aget_ok tabs 0 []) by (cbn; lia). cbn [bind Z.to_nat]. destruct (C 0%nat ltac:(lia)) as (L0 & C0). change (1 + 0)%nat with 1%nat in *.
  rewrite (aget_ok _ 0 0%N) by (cbn [Z.to_nat]; rewrite ?L0; cbn; lia). cbn [bind Z.to_nat].
  rewrite (pvalues 15 2 ltac:(lia) ltac:(lia) : serial_pvalues reals Q _ 15 2 = _). cbn [bind]. unfold serial_list. f_equal. f_equal.
  rewrite !of_N_real, bsize_real, Nat2N.id, C0 by (cbn; lia). rewrite <- bits_in_INR. cbn [nsub nmul nsqrt nint reals]. f_equal. unfold zeros_minus_ones. rewrite <- zeros_ones at 1. as_reals. ring.
Qed.
End Serial.
Lemma psi_one l : l <> [] -> psi_square l 1 = zeros_minus_ones l ^ 2 / bits_in l.
Proof.
  intro N0. pose proof (zeros_ones l) as Z. assert (B : bits_in l <> 0). { rewrite bits_in_INR. apply Rgt_not_eq, lt_0_INR. destruct l; [congruence|cbn; lia]. }
  unfold psi_square, zeros_minus_ones. cbn [Nat.pow Nat.mul Nat.add rsum]. rewrite <- Z in B |- *.
  set (a := how_often _ _ 0) in *. set (b := how_often _ _ 1) in *. field. exact B.
Qed.
Lemma zeros_square M : (1 <= M)%nat -> average (matrices 32 M) (fun l => zeros_minus_ones l ^ 2) = 32 * INR M.
Proof.
  intro HM. pose proof (psi_mean M 1 HM ltac:(lia)) as E. rewrite (average_ext _ _ (fun l => 32 * INR M * psi_square l 1)).
  - rewrite average_scale, E. ring.
  - intros l Hl. apply MissingLaw.in_matrices in Hl. destruct Hl as (L & _). rewrite psi_one by (destruct l; [cbn in L; lia|discriminate]). unfold bits_in. rewrite L. field.
    apply Rgt_not_eq, lt_0_INR. lia.
Qed.
