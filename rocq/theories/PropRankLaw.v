(** C113: the rank tests count every sample, and compare the counts with the
    exact law of the rank of a random bit matrix. *)
From Coq Require Import Reals Lra.
From Flocq Require Import Core.Raux IEEE754.BinarySingleNaN.
From Verif Require Import RankTestModel RankLawSpec RankLawLemmas DoubleModel ExpectedLemmas.
Open Scope N_scope.

(** * The number of matrices of each rank *)
Fixpoint gauss (m r : nat) : Z :=
  match m with
  | O => match r with O => 1%Z | _ => 0%Z end
  | S m => (2 ^ Z.of_nat r * gauss m r + match r with O => 0 | S q => gauss m q end)%Z
  end.
Lemma pow2_S a : (2 ^ Z.of_nat (S a) = 2 * 2 ^ Z.of_nat a)%Z.
Proof. rewrite Nat2Z.inj_succ, Z.pow_succ_r by lia. reflexivity. Qed.
Lemma frames_shift a r : frames (S a) (S r) = ((2 ^ Z.of_nat (S a) - 1) * 2 ^ Z.of_nat r * frames a r)%Z.
Proof.
  induction r as [|r IH]; [cbn [frames]; change (2 ^ Z.of_nat 0)%Z with 1%Z; ring|].
  change (frames (S a) (S (S r))) with (frames (S a) (S r) * (2 ^ Z.of_nat (S a) - 2 ^ Z.of_nat (S r)))%Z.
  rewrite IH. change (frames a (S r)) with (frames a r * (2 ^ Z.of_nat a - 2 ^ Z.of_nat r))%Z. rewrite !pow2_S. ring.
Qed.
Lemma frames_zero a : forall r, (a < r)%nat -> frames a r = 0%Z.
Proof.
  induction r as [|r IH]; intro H; [lia|]. cbn [frames]. destruct (Nat.eq_dec a r) as [->|]; [rewrite Z.sub_diag; ring|].
  rewrite IH by lia. ring.
Qed.
Lemma gauss_frames : forall m r, (gauss m r * frames r r = frames m r)%Z.
Proof.
  induction m as [|m IH]; intros [|r].
  - reflexivity.
  - rewrite (frames_zero 0) by lia. reflexivity.
  - cbn [gauss frames]. specialize (IH 0%nat). cbn [frames] in IH. change (2 ^ Z.of_nat 0)%Z with 1%Z. lia.
  - cbn [gauss]. rewrite Z.mul_add_distr_r, <- Z.mul_assoc, IH. rewrite (frames_shift r), (frames_shift m).
    replace (gauss m r * ((2 ^ Z.of_nat (S r) - 1) * 2 ^ Z.of_nat r * frames r r))%Z with ((2 ^ Z.of_nat (S r) - 1) * 2 ^ Z.of_nat r * (gauss m r * frames r r))%Z by ring.
    rewrite IH. cbn [frames]. rewrite !pow2_S. ring.
Qed.
Lemma number_gauss n d : forall m r, Z.of_N (number (N.of_nat n + N.of_nat d) m (rank_is (N.of_nat n) r)) =
  (2 ^ Z.of_nat (d * m) * (gauss m r * frames n r))%Z.
Proof.
  induction m as [|m IH]; intro r.
  - rewrite Nat.mul_0_r. change (2 ^ Z.of_nat 0)%Z with 1%Z. unfold number. cbn [matrices countp gauss]. rewrite Z.mul_1_l.
    destruct r as [|r]; [reflexivity|]. destruct (rank_is (N.of_nat n) (S r) []) eqn:E; [|reflexivity].
    apply rank_is_iff in E. pose proof (is_rank_unique [] (N.of_nat n) 0 (S r) eq_refl E). lia.
  - rewrite rank_step, N2Z.inj_mul, N2Z.inj_add, N2Z.inj_mul, IH.
    replace (2 ^ Z.of_nat (d * S m))%Z with (2 ^ Z.of_nat d * 2 ^ Z.of_nat (d * m))%Z by (rewrite <- Z.pow_add_r by lia; f_equal; lia).
    assert (P : forall k, Z.of_N (2 ^ N.of_nat k) = (2 ^ Z.of_nat k)%Z) by (intro k; rewrite N2Z.inj_pow, nat_N_Z; reflexivity).
    rewrite !P. cbn [gauss]. destruct r as [|q]; [cbn [frames]; change (Z.of_N 0) with 0%Z; ring|].
    rewrite N2Z.inj_mul, IH. cbn [frames]. destruct (Nat.le_gt_cases q n) as [Q|Q].
    + rewrite N2Z.inj_sub, !P by (apply N.pow_le_mono_r; lia). ring.
    + rewrite (frames_zero n q) by lia. ring.
Qed.

(** C113: of the lists of m words of w bits, the number of those whose n low
    columns have rank r is the textbook number of m x n matrices of rank r,
    times the number of choices for the other columns. *)
Theorem C113_law : forall m n w r p, (n <= w)%nat -> (forall rows, p rows = true <-> is_rank rows (N.of_nat n) r) ->
  (Z.of_N (number (N.of_nat w) m p) * frames r r = 2 ^ Z.of_nat ((w - n) * m) * frames m r * frames n r)%Z.
Proof.
  intros m n w r p W P. replace (number (N.of_nat w) m p) with (number (N.of_nat n + N.of_nat (w - n)) m (rank_is (N.of_nat n) r)).
  - rewrite number_gauss, <- (gauss_frames m r). ring.
  - replace (N.of_nat n + N.of_nat (w - n)) with (N.of_nat w) by lia. apply countp_ext. intros rows _.
    apply Bool.eq_iff_eq_true. rewrite P. apply rank_is_iff.
Qed.
(** 3 rows of 2 bits: 42 of the 64 matrices have rank 2 *)
Example C113_law_ex : number 2 3 (rank_is 2 2) = 42 /\ (42 * frames 2 2 = frames 3 2 * frames 2 2)%Z.
Proof. split; vm_compute; reflexivity. Qed.

(** * The cells *)
Lemma matrices_length w m : forall rows, In rows (matrices w m) -> length rows = m.
Proof.
  induction m as [|m IH]; intros rows I; cbn [matrices] in I.
  - destruct I as [<-|[]]. reflexivity.
  - apply in_flat_map in I. destruct I as (r & R & I). apply in_map_iff in I. destruct I as (v & <- & _). cbn [length]. now rewrite (IH r R).
Qed.
(** the sample made of these rows is counted in cell [c] of the table *)
Definition counted_in (nrows : nat) (ncols : N) (lo c : nat) (rows : list N) : bool :=
  match rank_sample (Z.of_nat nrows) (Z.of_N ncols) (Z.of_nat lo) rows (repeat 0 (S nrows)) with
  | Ok x => nth c x 0 =? 1
  | _ => false
  end.
Lemma counted_spec nrows ncols lo c rows r : ncols <= 32 -> (lo <= nrows)%nat -> (c <= nrows)%nat -> length rows = nrows ->
  is_rank rows ncols r -> counted_in nrows ncols lo c rows = Nat.eqb (Nat.max lo r) c.
Proof.
  intros N L C E R. unfold counted_in. subst nrows.
  destruct (rank_sample_spec rows ncols lo (repeat 0 (S (length rows))) N L (repeat_length _ _)) as (r' & R' & B & ->).
  rewrite (is_rank_unique _ _ _ _ R R') in *. rewrite nth_repeat.
  destruct (Nat.eqb_spec (Nat.max lo r') c) as [<-|D].
  - rewrite nth_set_nth_eq by (rewrite repeat_length; lia). reflexivity.
  - rewrite nth_set_nth_ne by auto. rewrite nth_repeat. reflexivity.
Qed.
Fixpoint sum_upto (n : nat) (f : nat -> N) : N := match n with O => 0 | S n => sum_upto n f + f n end.
Lemma number_upto w m n k : number w m (fun rows => existsb (fun r => rank_is n r rows) (seq 0 k)) = sum_upto k (fun r => number w m (rank_is n r)).
Proof.
  induction k as [|k IH]; [apply countp_none; reflexivity|]. cbn [sum_upto]. rewrite <- IH. unfold number. rewrite <- countp_split.
  - apply countp_ext. intros rows _. rewrite seq_S, existsb_app. cbn [existsb Nat.add]. now rewrite Bool.orb_false_r.
  - intros rows _ H. apply existsb_exists in H. destruct H as (r & I & H). apply in_seq in I. apply rank_is_iff in H.
    destruct (rank_is n k rows) eqn:E; [|reflexivity]. apply rank_is_iff in E. pose proof (is_rank_unique _ _ _ _ H E). lia.
Qed.
Lemma number_cell w nrows ncols lo c : ncols <= 32 -> (lo <= c <= nrows)%nat ->
  number w nrows (counted_in nrows ncols lo c) =
  (if Nat.eqb c lo then sum_upto (S lo) (fun r => number w nrows (rank_is ncols r)) else number w nrows (rank_is ncols c)).
Proof.
  intros N C. destruct (Nat.eqb_spec c lo) as [->|D]; [rewrite <- number_upto|]; apply countp_ext; intros rows I;
    pose proof (matrices_length _ _ _ I) as L; destruct (rank_exists ncols rows) as (r & Rl & R); rewrite (counted_spec nrows ncols lo _ rows r) by (auto; lia);
    apply Bool.eq_iff_eq_true; rewrite Nat.eqb_eq.
  - rewrite existsb_exists. split.
    + intro H. exists r. split; [apply in_seq; lia|now apply rank_is_iff].
    + intros (r' & I' & H). apply in_seq in I'. apply rank_is_iff in H. pose proof (is_rank_unique _ _ _ _ R H). lia.
  - rewrite rank_is_iff. split; [intro H; replace c with r by lia; exact R|]. intro H. pose proof (is_rank_unique _ _ _ _ R H). lia.
Qed.

(** * The tables *)
(** gauss by rows, to compute it *)
Definition gauss_next (l : list Z) : list Z :=
  map (fun r => (2 ^ Z.of_nat r * nth r l 0 + match r with O => 0 | S q => nth q l 0 end)%Z) (seq 0 (S (length l))).
Fixpoint gauss_row (m : nat) : list Z := match m with O => [1%Z] | S m => gauss_next (gauss_row m) end.
Lemma gauss_row_length m : length (gauss_row m) = S m.
Proof. induction m as [|m IH]; [reflexivity|]. cbn [gauss_row]. unfold gauss_next. now rewrite map_length, seq_length, IH. Qed.
Lemma gauss_row_ok : forall m r, nth r (gauss_row m) 0%Z = gauss m r.
Proof.
  induction m as [|m IH]; intro r.
  - destruct r as [|[|r]]; reflexivity.
  - cbn [gauss_row gauss]. unfold gauss_next. destruct (Nat.le_gt_cases r (S m)) as [R|R].
    + set (f := fun r => (2 ^ Z.of_nat r * nth r (gauss_row m) 0 + match r with O => 0 | S q => nth q (gauss_row m) 0 end)%Z).
      rewrite (nth_indep _ 0%Z (f 0%nat)) by (rewrite map_length, seq_length, gauss_row_length; lia).
      rewrite (map_nth f (seq 0 (S (length (gauss_row m)))) 0%nat r), seq_nth by (rewrite gauss_row_length; lia). cbn [Nat.add]. unfold f. rewrite IH. destruct r; [reflexivity|now rewrite IH].
    + rewrite nth_overflow by (rewrite map_length, seq_length, gauss_row_length; lia).
      rewrite <- IH, nth_overflow by (rewrite gauss_row_length; lia). destruct r as [|q]; [lia|]. rewrite <- IH, nth_overflow by (rewrite gauss_row_length; lia). lia.
Qed.
Definition cell_number (nrows ncols lo c : nat) : Z :=
  let f := fun r => (nth r (gauss_row nrows) 0 * frames ncols r)%Z in
  if Nat.eqb c lo then fold_right Z.add 0%Z (map f (seq 0 (S lo))) else f c.
Lemma cell_number_ok nrows ncols d lo c : (ncols + d = 32)%nat -> (lo <= c <= nrows)%nat ->
  Z.of_N (number 32 nrows (counted_in nrows (N.of_nat ncols) lo c)) = (2 ^ Z.of_nat (d * nrows) * cell_number nrows ncols lo c)%Z.
Proof.
  intros D C. replace 32 with (N.of_nat ncols + N.of_nat d) by lia. rewrite number_cell by lia. unfold cell_number.
  destruct (Nat.eqb c lo).
  - generalize (S lo) as k. induction k as [|k IH]; [cbn; lia|]. cbn [sum_upto]. rewrite N2Z.inj_add, IH, number_gauss, seq_S, map_app, fold_right_app.
    cbn [map fold_right Nat.add]. rewrite gauss_row_ok.
    assert (F : forall l b, fold_right Z.add b l = (fold_right Z.add 0 l + b)%Z) by (induction l as [|a l IHl]; intro b; cbn [fold_right]; [lia|rewrite IHl; lia]).
    rewrite (F _ (_ + 0)%Z). ring.
  - rewrite number_gauss, gauss_row_ok. reflexivity.
Qed.
Definition rounded_b (digits scale count total : Z) : bool := (2 * Z.abs (digits * total - count * scale) <=? total)%Z.
Lemma table32_ok : forallb (fun c => let p := nth (c - 29) rank32_table (0, 0)%Z in rounded_b (fst p) (snd p) (cell_number 32 32 29 c) (2 ^ 1024)) (seq 29 4) = true.
Proof. vm_compute. reflexivity. Qed.
Lemma table6_ok : forallb (fun c => let p := nth (c - 2) rank6_table (0, 0)%Z in rounded_b (fst p) (snd p) (cell_number 6 8 2 c) (2 ^ 48)) (seq 2 5) = true.
Proof. vm_compute. reflexivity. Qed.

(** C113: the probabilities in the tables are those with which a sample of
    uniformly distributed words is counted in each cell, correctly rounded to
    the digits given. *)
Theorem C113_table_32x32 : forall c, (29 <= c <= 32)%nat ->
  let p := nth (c - 29) rank32_table (0, 0)%Z in
  rounded (fst p) (snd p) (number 32 32 (counted_in 32 32 29 c)) (2 ^ (32 * 32)).
Proof.
  intros c C p. unfold rounded. pose proof (cell_number_ok 32 32 0 29 c eq_refl C) as E. change (N.of_nat 32) with 32 in *. rewrite E.
  pose proof table32_ok as T. rewrite forallb_forall in T. specialize (T c ltac:(apply in_seq; lia)). cbv beta zeta in T. fold p in T.
  unfold rounded_b in T. apply Z.leb_le in T. change (Z.of_N (2 ^ (32 * 32))) with (2 ^ 1024)%Z. change (2 ^ Z.of_nat (0 * 32))%Z with 1%Z. rewrite Z.mul_1_l. exact T.
Qed.
Theorem C113_table_6x8 : forall c, (2 <= c <= 6)%nat ->
  let p := nth (c - 2) rank6_table (0, 0)%Z in
  rounded (fst p) (snd p) (number 32 6 (counted_in 6 8 2 c)) (2 ^ (32 * 6)).
Proof.
  intros c C p. unfold rounded. pose proof (cell_number_ok 6 8 24 2 c eq_refl C) as E. change (N.of_nat 8) with 8 in E. rewrite E.
  pose proof table6_ok as T. rewrite forallb_forall in T. specialize (T c ltac:(apply in_seq; lia)). cbv beta zeta in T. fold p in T.
  unfold rounded_b in T. apply Z.leb_le in T. change (Z.of_N (2 ^ (32 * 6))) with (2 ^ 144 * 2 ^ 48)%Z. change (2 ^ Z.of_nat (24 * 6))%Z with (2 ^ 144)%Z.
  set (a := (2 ^ 48)%Z) in *. set (b := (2 ^ 144)%Z). assert (B : (0 < b)%Z) by reflexivity. set (k := cell_number 6 8 2 c) in *. clearbody a b k p.
  replace (fst p * (b * a) - b * k * snd p)%Z with (b * (fst p * a - k * snd p))%Z by ring. rewrite Z.abs_mul, (Z.abs_eq b) by lia. nia.
Qed.
(** a smaller case, by enumeration: 2 rows of 2 columns, ranks up to 1 pooled *)
Example C113_table_ex : number 3 2 (counted_in 2 2 1 1) = 40 /\ number 3 2 (counted_in 2 2 1 2) = 24 /\
  map (fun c => (2 ^ Z.of_nat (1 * 2) * cell_number 2 2 1 c)%Z) [1; 2]%nat = [40; 24]%Z.
Proof. vm_compute. repeat split; reflexivity. Qed.

(** * The run *)
Section Run.
Variable w : nat -> N.
Lemma rank_samples_ok nrows ncols lo : ncols <= 32 -> (lo <= nrows)%nat -> forall n x l c,
  length x = S nrows -> tallies x (map (fun r => Z.of_nat (Nat.max lo r)) l) ->
  exists ranks x', rank_samples w nrows (Z.of_N ncols) (Z.of_nat lo) n x c = Ok x' /\ length ranks = n /\
    (forall t, (t < n)%nat -> is_rank (map w (seq (c + t * nrows) nrows)) ncols (nth t ranks 0%nat)) /\
    length x' = S nrows /\ tallies x' (map (fun r => Z.of_nat (Nat.max lo r)) (l ++ ranks)).
Proof.
  intros N L. induction n as [|n IH]; intros x l c X T.
  - exists [], x. cbn [rank_samples]. rewrite app_nil_r. split; [reflexivity|]. split; [reflexivity|]. split; [intros t H; lia|]. split; assumption.
  - cbn [rank_samples]. set (rows := map w (seq c nrows)). assert (RL : length rows = nrows) by (unfold rows; now rewrite map_length, seq_length).
    destruct (rank_sample_spec rows ncols lo x) as (r & R & B & E); [exact N|lia|lia|]. rewrite RL in E, B. rewrite E. cbn [bind].
    destruct (tallies_bump x _ (Z.of_nat (Nat.max lo r)) T ltac:(lia)) as (x1 & E1 & L1 & T1).
    rewrite bump_ok in E1 by lia. rewrite Nat2Z.id in E1. injection E1 as E1. rewrite E1.
    destruct (IH x1 (l ++ [r]) (c + nrows)%nat ltac:(congruence)) as (ranks & x' & E2 & Lr & Rs & Lx & T2).
    { rewrite map_app. exact T1. }
    exists (r :: ranks), x'. split; [exact E2|]. split; [cbn [length]; lia|]. split; [|split; [exact Lx|]].
    + intros [|t] H; [rewrite Nat.add_0_r; exact R|]. cbn [nth]. replace (c + S t * nrows)%nat with (c + nrows + t * nrows)%nat by lia. apply Rs. lia.
    + replace (l ++ r :: ranks) with ((l ++ [r]) ++ ranks) by (rewrite <- app_assoc; reflexivity). exact T2.
Qed.
(** C113: each sample is counted in the cell of the rank of its own matrix. *)
Theorem C113_counts_32x32 : forall n, n < 2 ^ 31 -> exists ranks x, diehard_rank_32x32 w n = Ok (x, rank_expected 29 rank32_table n) /\
  length ranks = N.to_nat n /\ (forall t, (t < N.to_nat n)%nat -> is_rank (map w (seq (t * 32) 32)) 32 (nth t ranks 0%nat)) /\
  length x = 33%nat /\ tallies x (map (fun r => Z.of_nat (Nat.max 29 r)) ranks) /\ total x = n.
Proof.
  intros n H. unfold diehard_rank_32x32. destruct (N.leb_spec (2 ^ 31) n); [lia|].
  destruct (rank_samples_ok 32 32 29 ltac:(lia) ltac:(lia) (N.to_nat n) (repeat 0 33) [] 0 eq_refl (tallies_nil 33)) as (ranks & x & E & L & R & LX & T).
  change (Z.of_N 32) with 32%Z in E. change (Z.of_nat 29) with 29%Z in E. rewrite E. exists ranks, x. split; [reflexivity|]. split; [exact L|]. split; [exact R|]. split; [exact LX|].
  cbn [app] in T. split; [exact T|]. rewrite (tallies_total _ _ T), map_length. lia.
Qed.
Theorem C113_counts_6x8 : forall n, n < 2 ^ 31 -> exists ranks x, diehard_rank_6x8 w n = Ok (x, rank_expected 2 rank6_table n) /\
  length ranks = N.to_nat n /\ (forall t, (t < N.to_nat n)%nat -> is_rank (map w (seq (t * 6) 6)) 8 (nth t ranks 0%nat)) /\
  length x = 7%nat /\ tallies x (map (fun r => Z.of_nat (Nat.max 2 r)) ranks) /\ total x = n.
Proof.
  intros n H. unfold diehard_rank_6x8. destruct (N.leb_spec (2 ^ 31) n); [lia|].
  destruct (rank_samples_ok 6 8 2 ltac:(lia) ltac:(lia) (N.to_nat n) (repeat 0 7) [] 0 eq_refl (tallies_nil 7)) as (ranks & x & E & L & R & LX & T).
  change (Z.of_N 8) with 8%Z in E. change (Z.of_nat 2) with 2%Z in E. rewrite E. exists ranks, x. split; [reflexivity|]. split; [exact L|]. split; [exact R|]. split; [exact LX|].
  cbn [app] in T. split; [exact T|]. rewrite (tallies_total _ _ T), map_length. lia.
Qed.
End Run.
Example C113_counts_ex : match diehard_rank_6x8 (fun i => nth i [1; 2; 4; 8; 16; 32; 3; 3; 3; 256; 0; 0x103] 0) 2 with
  | Ok (x, _) => x = [0; 0; 1; 0; 0; 0; 1] | _ => False end.
Proof. vm_compute. reflexivity. Qed.

(** C113: the expected counts are those of the exact law: cells below the first
    are 0 (as are their counts), the others within 6/10^11 (32x32) or 6/10^7
    (6x8) per sample. *)
Open Scope R_scope.
Definition probability (count total : N) : R := IZR (Z.of_N count) / IZR (Z.of_N total).
Lemma rounded_real digits scale count total : (0 < scale)%Z -> (0 < total)%N -> rounded digits scale count total ->
  Rabs (IZR digits / IZR scale - probability count total) <= / (2 * IZR scale).
Proof.
  intros S T H. unfold rounded in H. apply IZR_le in H. rewrite mult_IZR, abs_IZR, minus_IZR, !mult_IZR in H. unfold probability.
  assert (SR : 0 < IZR scale) by (apply IZR_lt; lia). assert (TR : 0 < IZR (Z.of_N total)) by (apply IZR_lt; lia).
  set (d := IZR digits) in *. set (s := IZR scale) in *. set (c := IZR (Z.of_N count)) in *. set (t := IZR (Z.of_N total)) in *. clearbody d s c t.
  replace (d / s - c / t) with ((d * t - c * s) * / (s * t)) by (field; lra). rewrite Rabs_mult.
  rewrite (Rabs_pos_eq (/ (s * t))) by (apply Rlt_le, Rinv_0_lt_compat; nra).
  apply Rmult_le_reg_r with (2 * (s * t)); [nra|]. replace (Rabs (d * t - c * s) * / (s * t) * (2 * (s * t))) with (2 * Rabs (d * t - c * s)) by (field; lra).
  replace (/ (2 * s) * (2 * (s * t))) with t by (field; lra). exact H.
Qed.
Lemma expected_cell lo table n c : (lo <= c < lo + length table)%nat ->
  nth c (rank_expected lo table n) dzero = (let p := nth (c - lo) table (0, 0)%Z in dmul (d_of_Z (Z.of_N n)) (d_lit (fst p) (snd p))).
Proof.
  intro C. unfold rank_expected. rewrite app_nth2 by (rewrite repeat_length; lia). rewrite repeat_length.
  set (f := fun p : Z * Z => dmul (d_of_Z (Z.of_N n)) (d_lit (fst p) (snd p))).
  rewrite (nth_indep _ dzero (f (0, 0)%Z)) by (rewrite map_length; lia). exact (map_nth f table (0, 0)%Z (c - lo)).
Qed.
Lemma expected_entry lo table n c (count total : N) : (n < 2 ^ 32)%N -> (lo <= c < lo + length table)%nat ->
  let p := nth (c - lo) table (0, 0)%Z in (0 < fst p <= snd p)%Z -> (snd p <= 2 ^ 53)%Z -> (0 < total)%N ->
  rounded (fst p) (snd p) count total ->
  let e := nth c (rank_expected lo table n) dzero in
  is_finite e = true /\ Rabs (B2R e - IZR (Z.of_N n) * probability count total) <= IZR (Z.of_N n) * (/ (2 * IZR (snd p)) + 3 / 10000000000000000).
Proof.
  intros N C p P Q T H e. unfold e. rewrite expected_cell by exact C. fold p. cbv zeta.
  destruct (expected_close (Z.of_N n) (fst p) (snd p)) as (F & D); [lia|lia|lia|]. split; [exact F|].
  assert (R := rounded_real (fst p) (snd p) count total ltac:(lia) T H).
  apply Rabs_le_inv in D, R. apply Rabs_le.
  assert (SR : 0 < IZR (snd p)) by (apply IZR_lt; lia). assert (U : 0 <= IZR (fst p) / IZR (snd p) <= 1).
  { assert (0 <= IZR (fst p)) by (apply IZR_le; lia). assert (IZR (fst p) <= IZR (snd p)) by (apply IZR_le; lia). split.
    - apply Rmult_le_pos; [lra|]. apply Rlt_le, Rinv_0_lt_compat. lra.
    - apply Rmult_le_reg_r with (IZR (snd p)); [lra|]. unfold Rdiv. rewrite Rmult_assoc, Rinv_l by lra. lra. }
  assert (NR : 0 <= IZR (Z.of_N n)) by (apply IZR_le; lia).
  set (v := IZR (Z.of_N n)) in *. set (q := IZR (fst p) / IZR (snd p)) in *. set (x := B2R (dmul (d_of_Z (Z.of_N n)) (d_lit (fst p) (snd p)))) in *.
  set (L := probability count total) in *. set (h := / (2 * IZR (snd p))) in *. clearbody v q x L h. clear - NR U R D. nra.
Qed.
Theorem C113_expected_32x32 : forall n c, (n < 2 ^ 32)%N -> (c <= 32)%nat ->
  let e := nth c (rank_expected 29 rank32_table n) dzero in
  is_finite e = true /\ ((c < 29)%nat -> e = dzero) /\
  ((29 <= c)%nat -> Rabs (B2R e - IZR (Z.of_N n) * probability (number 32 32 (counted_in 32 32 29 c)) (2 ^ (32 * 32))) <= IZR (Z.of_N n) * (6 / 100000000000)).
Proof.
  intros n c N C e. destruct (Nat.lt_ge_cases c 29) as [L|L].
  - assert (E : e = dzero) by (unfold e, rank_expected; rewrite app_nth1 by (rewrite repeat_length; lia); apply nth_repeat). split; [rewrite E; reflexivity|]. split; [auto|lia].
  - assert (P : (0 < fst (nth (c - 29) rank32_table (0, 0)) <= snd (nth (c - 29) rank32_table (0, 0)))%Z /\ snd (nth (c - 29) rank32_table (0, 0)%Z) = (10 ^ 10)%Z).
    { assert (K : (c - 29 = 0 \/ c - 29 = 1 \/ c - 29 = 2 \/ c - 29 = 3)%nat) by lia. destruct K as [->|[->|[->| ->]]]; unfold rank32_table, rank6_table; cbn [nth fst snd]; clear; lia. }
    destruct P as (P1 & P2). pose proof (C113_table_32x32 c (conj L C)) as T. cbv zeta in T.
    destruct (expected_entry 29 rank32_table n c (number 32 32 (counted_in 32 32 29 c)) (2 ^ (32 * 32)) N) as (F & D); [cbn; lia|exact P1|rewrite P2; lia|reflexivity|exact T|].
    split; [exact F|]. split; [lia|]. intros _. eapply Rle_trans; [exact D|]. rewrite P2. apply Rmult_le_compat_l; [apply IZR_le; lia|]. change (10 ^ 10)%Z with 10000000000%Z. lra.
Qed.
Theorem C113_expected_6x8 : forall n c, (n < 2 ^ 32)%N -> (c <= 6)%nat ->
  let e := nth c (rank_expected 2 rank6_table n) dzero in
  is_finite e = true /\ ((c < 2)%nat -> e = dzero) /\
  ((2 <= c)%nat -> Rabs (B2R e - IZR (Z.of_N n) * probability (number 32 6 (counted_in 6 8 2 c)) (2 ^ (32 * 6))) <= IZR (Z.of_N n) * (6 / 10000000)).
Proof.
  intros n c N C e. destruct (Nat.lt_ge_cases c 2) as [L|L].
  - assert (E : e = dzero) by (unfold e, rank_expected; rewrite app_nth1 by (rewrite repeat_length; lia); apply nth_repeat). split; [rewrite E; reflexivity|]. split; [auto|lia].
  - assert (P : (0 < fst (nth (c - 2) rank6_table (0, 0)) <= snd (nth (c - 2) rank6_table (0, 0)))%Z /\ (10 ^ 6 <= snd (nth (c - 2) rank6_table (0, 0)%Z) <= 10 ^ 12)%Z).
    { assert (K : (c - 2 = 0 \/ c - 2 = 1 \/ c - 2 = 2 \/ c - 2 = 3 \/ c - 2 = 4)%nat) by lia. destruct K as [->|[->|[->|[->| ->]]]]; unfold rank32_table, rank6_table; cbn [nth fst snd]; clear; lia. }
    destruct P as (P1 & P2). pose proof (C113_table_6x8 c (conj L C)) as T. cbv zeta in T.
    destruct (expected_entry 2 rank6_table n c (number 32 6 (counted_in 6 8 2 c)) (2 ^ (32 * 6)) N) as (F & D); [cbn; lia|exact P1|lia|reflexivity|exact T|].
    split; [exact F|]. split; [lia|]. intros _. eapply Rle_trans; [exact D|]. apply Rmult_le_compat_l; [apply IZR_le; lia|].
    assert (S : 1000000 <= IZR (snd (nth (c - 2) rank6_table (0, 0)%Z))) by (apply IZR_le; lia).
    apply Rle_trans with (/ (2 * 1000000) + 3 / 10000000000000000); [|lra]. apply Rplus_le_compat_r. apply Rinv_le; lra.
Qed.
Print Assumptions C113_law.
Print Assumptions C113_table_32x32.
Print Assumptions C113_table_6x8.
Print Assumptions C113_counts_32x32.
Print Assumptions C113_counts_6x8.
Print Assumptions C113_expected_32x32.
Print Assumptions C113_expected_6x8.
