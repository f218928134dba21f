(** Theorems C114, C115: the matrix and the statistic of diehard_operm5. *)
From Coq Require Import Lia Lra Bool.
From Verif Require Import BaseLemmas.
From Verif Require Export OpermReal.
Open Scope R_scope.

(** The covariance of the counts per window; C114_covariance says that it is. *)
Definition Cov (i j : nat) : R := IZR (covz i j) / 3628800.
(** what is missing at the two ends of the sequence *)
Definition End (i j : nat) : R := IZR (endz i j) / 3628800.

(** ** C114: the matrix *)
(** Every one of the 120 counts has mean n/120, and the counts of all n windows
    of n+4 numbers have covariances n Cov - End: averages over all orderings. *)
Theorem C114_mean : forall n all i, (Z.of_nat (n + 4) < 2 ^ 31)%Z -> lists_orderings (n + 4) all -> (i < 120)%nat ->
  average all (fun pi => counted true n pi i) = INR n / 120.
Proof.
  intros n all i Hb H Hi. pose proof (lists_length _ _ H) as Pos. destruct H as (Hnd & Hall).
  pose proof (mean_sum (n + 4) Hb all Hnd Hall n (start true) ltac:(intros s Hs; cbn; lia) i Hi) as M. rewrite <- (all_length _ _ Hnd Hall) in M.
  apply (f_equal IZR) in M. rewrite !mult_IZR, <- !INR_IZR_INZ, <- lsumR_IZR in M. unfold average.
  rewrite (lsumR_ext all _ (fun pi => IZR (cnt n (start true) i pi))) by (intros; now apply counted_cnt).
  set (X := lsumR all _) in *. apply (Rmult_eq_reg_r (INR (length all))); [|lra]. field_simplify; [|lra]. lra.
Qed.
Theorem C114_covariance : forall n all i j, (4 <= n)%nat -> (Z.of_nat (n + 4) < 2 ^ 31)%Z -> lists_orderings (n + 4) all -> (i < 120)%nat -> (j < 120)%nat ->
  average all (fun pi => (counted true n pi i - INR n / 120) * (counted true n pi j - INR n / 120)) = INR n * Cov i j - End i j.
Proof.
  intros n all i j Hn Hb H Hi Hj. pose proof (lists_length _ _ H) as Pos. unfold average.
  pose proof (dev_sum true (n + 4) n all i j Hb H ltac:(intros s Hs; cbn; lia) Hi Hj) as D. unfold dev in D. rewrite D.
  cbn [start]. rewrite kz_sum by assumption. unfold Cov, End. rewrite (INR_IZR_INZ n).
  replace (252 * (Z.of_nat n * Z.of_nat n) + Z.of_nat n * covz i j - endz i j - 252 * (Z.of_nat n * Z.of_nat n))%Z with (Z.of_nat n * covz i j - endz i j)%Z by lia.
  rewrite minus_IZR, mult_IZR. field. lra.
Qed.
Example C114_covariance_ex : covz 0 0 = 28672%Z /\ covz 0 1 = (-1568)%Z /\ window_number [4; 2; 0; 1; 3]%nat 0 = Ok 78%Z /\ ordering 5 [4; 2; 0; 1; 3]%nat.
Proof. split; [vm_compute; reflexivity|]. split; [vm_compute; reflexivity|]. split; [vm_compute; reflexivity|]. apply order_okb_ok. reflexivity. Qed.

(** The table is a generalised inverse of the covariance matrix. *)
Theorem C114_inverse : forall i j, (i < 120)%nat -> (j < 120)%nat ->
  Rabs (rsum 120 (fun k => rsum 120 (fun l => Cov i k * Pinv k l * Cov l j)) - Cov i j) <= 4 / 10 ^ 13.
Proof.
  intros i j Hi Hj. pose proof (inverse_Z i j Hi Hj) as I. apply IZR_le in I. rewrite abs_IZR, minus_IZR, !mult_IZR, lsum_rsum in I.
  rewrite (rsum_ext _ _ (fun k => / (3628800 * IZR unitz) * IZR (covz i k * prod k j))).
  - rewrite <- rsum_scale. unfold Cov. set (X := rsum 120 _) in *. set (c := IZR (covz i j)) in *. clearbody X c.
    replace (/ (3628800 * IZR unitz) * X - c / 3628800) with (/ (3628800 * IZR unitz) * (X - IZR unitz * c)) by (unfold unitz; field).
    rewrite Rabs_mult, (Rabs_pos_eq (/ _)) by (unfold unitz; apply Rlt_le, Rinv_0_lt_compat; lra).
    apply (Rmult_le_reg_l (3628800 * IZR unitz)); [unfold unitz; lra|]. rewrite <- Rmult_assoc, Rinv_r by (unfold unitz; lra). unfold unitz, errz in *. lra.
  - intros k Hk. unfold prod. rewrite mult_IZR, lsum_rsum, !rsum_scale. apply rsum_ext. intros l Hl. unfold Cov, Pinv, ent, entry. rewrite mult_IZR. unfold unitz. field.
Qed.

(** *** the linear relations between the counts *)
(** the orders of the first and of the last four values of the ordering number i *)
Definition first4 (i : nat) : list nat := filter (fun x => x <? 4)%nat (order i).
Definition last4 (i : nat) : list nat := map pred (filter (fun x => 1 <=? x)%nat (order i)).
Definition orders4 : list (list nat) := [[0;1;2;3];[0;1;3;2];[0;2;1;3];[0;3;1;2];[0;2;3;1];[0;3;2;1];[1;0;2;3];[1;0;3;2];[2;0;1;3];[3;0;1;2];[2;0;3;1];[3;0;2;1];[1;2;0;3];[1;3;0;2];[2;1;0;3];[3;1;0;2];[2;3;0;1];[3;2;0;1];[1;2;3;0];[1;3;2;0];[2;1;3;0];[3;1;2;0];[2;3;1;0];[3;2;1;0]]%nat.
(** a path to every order of four: a pattern, an order already reached, a new one *)
Definition paths : list (nat * (nat * nat)) := [(0,(0,18));(7,(18,22));(8,(22,19));(9,(22,21));(10,(22,23));(12,(19,4));(13,(21,10));(14,(21,16));(15,(21,17));(16,(19,5));(17,(19,11));(18,(18,1));(22,(18,3));(23,(18,9));(27,(17,20));(48,(5,13));(50,(17,15));(64,(4,7));(72,(1,12));(73,(7,14));(78,(15,8));(81,(13,2));(84,(3,6))]%nat.
Definition list_eqb (a b : list nat) : bool := Nat.eqb (length a) (length b) && forallb (fun xy => Nat.eqb (fst xy) (snd xy)) (combine a b).
Lemma list_eqb_ok : forall a b, list_eqb a b = true -> a = b.
Proof.
  unfold list_eqb. induction a as [|x a IH]; intros [|y b] H; try discriminate; [reflexivity|]. cbn in H. apply andb_true_iff in H. destruct H as (L & H). apply andb_true_iff in H. destruct H as (E & H).
  apply Nat.eqb_eq in E. f_equal; [exact E|]. apply IH. now rewrite L, H.
Qed.
Lemma orders4_check : all120 (fun k => list_eqb (first4 k) (nth (ff k) orders4 []) && list_eqb (last4 k) (nth (lf k) orders4 [])) = true.
Proof. vm_compute. reflexivity. Qed.
Lemma orders4_ok k : (k < 120)%nat -> first4 k = nth (ff k) orders4 [] /\ last4 k = nth (lf k) orders4 [].
Proof. intro H. pose proof (all120_ok _ orders4_check k H) as C. cbn beta in C. apply andb_true_iff in C. destruct C. split; now apply list_eqb_ok. Qed.
Fixpoint reach (ps : list (nat * (nat * nat))) (r : list nat) : option (list nat) :=
  match ps with
  | [] => Some r
  | (k, (a, b)) :: ps =>
    if ((k <? 120) && existsb (Nat.eqb a) r && ((ff k =? a) && (lf k =? b) || (ff k =? b) && (lf k =? a)))%nat then reach ps (b :: r) else None
  end.
Definition reached : bool := match reach paths [0%nat] with Some r => forallb (fun m => existsb (Nat.eqb m) r) (seq 0 24) | None => false end.
Lemma reached_check : reached = true.
Proof. vm_compute. reflexivity. Qed.

(** Orders of four at the beginning and at the end of a window are equally
    frequent, up to the ends of the sequence, and the counts have a fixed total:
    the covariance matrix kills these combinations of the counts, ... *)
Theorem C114_relations : forall i (z : list nat -> R) (c : R), (i < 120)%nat ->
  rsum 120 (fun k => Cov i k * (c + z (first4 k) - z (last4 k))) = 0.
Proof.
  intros i z c Hi.
  assert (G : forall m, (m < 24)%nat -> rsum 120 (fun k => Cov i k * ((if Nat.eqb (ff k) m then 1 else 0) - (if Nat.eqb (lf k) m then 1 else 0))) = 0).
  { intros m Hm. destruct (cov_null i (fun t => if Nat.eqb t m then 1%Z else 0%Z) Hi) as (A & _). apply (f_equal IZR) in A. rewrite lsum_rsum in A.
    rewrite (rsum_ext _ _ (fun k => / 3628800 * IZR (covz i k * ((if Nat.eqb (ff k) m then 1 else 0) - (if Nat.eqb (lf k) m then 1 else 0))))).
    - rewrite <- rsum_scale, A. lra.
    - intros k Hk. rewrite mult_IZR, minus_IZR. unfold Cov. destruct (Nat.eqb (ff k) m), (Nat.eqb (lf k) m); field. }
  assert (Sel : forall a, (a < 24)%nat -> z (nth a orders4 []) = rsum 24 (fun m => z (nth m orders4 []) * (if Nat.eqb a m then 1 else 0))).
  { intros a Ha. rewrite (rsum_single 24 _ a Ha); [rewrite Nat.eqb_refl; ring|]. intros m _ N. destruct (Nat.eqb_spec a m); [congruence|ring]. }
  destruct shapes as (_ & _ & _ & _ & _ & _ & F1 & F2).
  rewrite (rsum_ext _ _ (fun k => c * Cov i k + rsum 24 (fun m => z (nth m orders4 []) * (Cov i k * ((if Nat.eqb (ff k) m then 1 else 0) - (if Nat.eqb (lf k) m then 1 else 0)))))).
  - rewrite <- rsum_plus, <- rsum_scale, rsum_swap. rewrite (rsum_ext 24 _ (fun _ => 0)) by (intros m Hm; now rewrite <- rsum_scale, (G m Hm), Rmult_0_r).
    destruct (cov_null i (fun _ => 0%Z) Hi) as (_ & B). apply (f_equal IZR) in B. rewrite lsum_rsum in B.
    unfold Cov. rewrite (rsum_ext 120 _ (fun k => / 3628800 * IZR (covz i k))) by (intros; field). rewrite <- rsum_scale, B, rsum_zero. ring.
  - intros k Hk. destruct (orders4_ok k Hk) as (-> & ->). rewrite (Sel (ff k)), (Sel (lf k)) by auto.
    rewrite (rsum_ext 24 (fun m => z (nth m orders4 []) * (Cov i k * _)) (fun m => Cov i k * (z (nth m orders4 []) * (if Nat.eqb (ff k) m then 1 else 0) - z (nth m orders4 []) * (if Nat.eqb (lf k) m then 1 else 0)))) by (intros; ring).
    rewrite <- rsum_scale, rsum_minus. ring.
Qed.
(** ... nothing else: a vector orthogonal to all of them that the matrix kills is
    zero, ... *)
Theorem C114_no_more_relations : forall x : nat -> R,
  (forall i, (i < 120)%nat -> rsum 120 (fun k => Cov i k * x k) = 0) ->
  (forall (z : list nat -> R) (c : R), rsum 120 (fun k => x k * (c + z (first4 k) - z (last4 k))) = 0) ->
  forall k, (k < 120)%nat -> x k = 0.
Proof.
  intros x Hc Ho.
  (* x' P C x = 0 *)
  set (M := fun j => rsum 120 (fun k => x k * IZR (prod k j))).
  assert (Zero : rsum 120 (fun j => x j * M j) = 0).
  { unfold M. rewrite (rsum_ext _ _ (fun j => rsum 120 (fun k => x j * (x k * IZR (prod k j))))) by (intros; apply rsum_scale).
    rewrite rsum_swap. rewrite (rsum_ext _ _ (fun _ => 0)); [apply rsum_zero|]. intros k Hk.
    rewrite (rsum_ext _ _ (fun j => x k * (rsum 120 (fun l => IZR (ent k l) * (IZR (covz l j) * x j))))).
    - rewrite <- rsum_scale, rsum_swap. rewrite (rsum_ext _ _ (fun _ => 0)); [rewrite rsum_zero; ring|]. intros l Hl. rewrite <- rsum_scale.
      specialize (Hc l Hl). unfold Cov in Hc. rewrite (rsum_ext _ _ (fun k => / 3628800 * (IZR (covz l k) * x k))) in Hc by (intros; field). rewrite <- rsum_scale in Hc.
      set (Y := rsum 120 _) in *. assert (Y = 0) as -> by lra. ring.
    - intros j Hj. unfold prod. rewrite lsum_rsum. replace (x j * (x k * rsum 120 (fun l => IZR (covz l j * ent k l)))) with (x k * (x j * rsum 120 (fun l => IZR (covz l j * ent k l)))) by ring.
      f_equal. rewrite rsum_scale. apply rsum_ext. intros l Hl. rewrite mult_IZR. ring. }
  set (S := rsum 120 (fun k => x k * x k)).
  assert (Near : forall j, (j < 120)%nat -> Rabs (M j - IZR unitz * x j) <= IZR errz * rsum 120 (fun k => Rabs (x k))).
  { intros j Hj. destruct (all_good j Hj) as (z & z0 & G).
    assert (Oz : rsum 120 (fun k => x k * (IZR z0 + IZR (z (ff k)) - IZR (z (lf k)))) = 0).
    { rewrite <- (Ho (fun w => IZR (z (match find (fun m => list_eqb w (nth m orders4 [])) (seq 0 24) with Some m => m | None => 0%nat end))) (IZR z0)).
      apply rsum_ext. intros k Hk. destruct (orders4_ok k Hk) as (-> & ->).
      assert (Fd : forall m, (m < 24)%nat -> find (fun t => list_eqb (nth m orders4 []) (nth t orders4 [])) (seq 0 24) = Some m)
        by (intros m Hm; do 24 (destruct m as [|m]; [vm_compute; reflexivity|]); lia).
      destruct shapes as (_ & _ & _ & _ & _ & _ & F1 & F2). rewrite !Fd by auto. reflexivity. }
    assert (Od : rsum 120 (fun k => x k * IZR (delta k j)) = IZR unitz * x j).
    { rewrite (rsum_single 120 _ j Hj); [unfold delta; rewrite Nat.eqb_refl; ring|]. intros k _ N. unfold delta. destruct (Nat.eqb_spec k j); [congruence|]. ring. }
    replace (M j - IZR unitz * x j) with (rsum 120 (fun k => x k * IZR (prod k j - delta k j - (z (ff k) - z (lf k) + z0)))).
    - eapply Rle_trans; [apply rsum_abs|]. rewrite rsum_scale. apply rsum_le. intros k Hk. rewrite Rabs_mult, Rmult_comm. apply Rmult_le_compat_r; [apply Rabs_pos|].
      rewrite <- abs_IZR. apply IZR_le. now apply G.
    - rewrite <- Od. unfold M. rewrite <- rsum_minus. rewrite <- (Rminus_0_r (rsum 120 (fun k => x k * IZR (prod k j) - x k * IZR (delta k j)))), <- Oz, <- rsum_minus.
      apply rsum_ext. intros k Hk. rewrite !minus_IZR, plus_IZR, minus_IZR. ring. }
  assert (Sq : rsum 120 (fun j => Rabs (x j) * rsum 120 (fun k => Rabs (x k))) <= 120 * S).
  { eapply Rle_trans; [apply (rsum_le _ _ (fun j => rsum 120 (fun k => / 2 * (x j * x j) + / 2 * (x k * x k))))|].
    - intros j Hj. rewrite rsum_scale. apply rsum_le. intros k Hk. pose proof (Rle_0_sqr (Rabs (x j) - Rabs (x k))) as Q. unfold Rsqr in Q.
      assert (X : forall t, Rabs t * Rabs t = t * t) by (intro t; rewrite <- Rabs_mult; apply Rabs_pos_eq; pose proof (Rle_0_sqr t); unfold Rsqr in *; lra).
      pose proof (X (x j)). pose proof (X (x k)). lra.
    - right. rewrite (rsum_ext _ _ (fun j => 60 * (x j * x j) + / 2 * S)).
      + rewrite <- rsum_plus, <- rsum_scale, rsum_const. fold S. replace (INR 120) with 120 by (cbn; lra). lra.
      + intros j Hj. rewrite <- rsum_plus, rsum_const, <- rsum_scale. fold S. replace (INR 120) with 120 by (cbn; lra). lra. }
  assert (Tot : IZR unitz * S <= IZR errz * (120 * S)).
  { replace (IZR unitz * S) with (Rabs (rsum 120 (fun j => x j * (M j - IZR unitz * x j)))).
    - eapply Rle_trans; [apply rsum_abs|]. eapply Rle_trans; [apply (rsum_le _ _ (fun j => IZR errz * (Rabs (x j) * rsum 120 (fun k => Rabs (x k)))))|].
      + intros j Hj. rewrite Rabs_mult. specialize (Near j Hj). pose proof (Rabs_pos (x j)). nra.
      + rewrite <- rsum_scale. apply Rmult_le_compat_l; [unfold errz; lra|exact Sq].
    - rewrite (rsum_ext _ _ (fun j => x j * M j - IZR unitz * (x j * x j))) by (intros; ring). rewrite rsum_minus, Zero, <- rsum_scale. fold S.
      assert (0 <= S) by (apply rsum_nonneg; intros k _; pose proof (Rle_0_sqr (x k)); unfold Rsqr in *; lra).
      rewrite Rminus_0_l, Rabs_Ropp. apply Rabs_pos_eq. unfold unitz. nra. }
  assert (S0 : S <= 0) by (unfold unitz, errz in Tot; lra).
  intros k Hk. assert (x k * x k = 0) by (apply (rsum_zero_all 120 (fun k => x k * x k)); [intros t _; pose proof (Rle_0_sqr (x t)); unfold Rsqr in *; lra|exact S0|exact Hk]).
  apply Rsqr_0_uniq. exact H.
Qed.
(** ... and only one of them is void: of the 25 relations (one for each order of
    four, and the constant) 24 are independent.  The rank is 120 - 24 = 96. *)
Theorem C114_independent : forall (z : list nat -> R) (c : R),
  (forall k, (k < 120)%nat -> c + z (first4 k) - z (last4 k) = 0) -> c = 0 /\ forall i j, (i < 120)%nat -> (j < 120)%nat -> z (first4 i) = z (first4 j).
Proof.
  intros z c H. assert (C0 : c = 0).
  { specialize (H 11%nat ltac:(lia)). replace (last4 11) with (first4 11) in H by reflexivity. lra. }
  split; [exact C0|]. subst c.
  set (u := fun m => z (nth m orders4 [])).
  assert (E : forall k, (k < 120)%nat -> u (ff k) = u (lf k)).
  { intros k Hk. specialize (H k Hk). destruct (orders4_ok k Hk) as (A & B). rewrite A, B in H. unfold u. lra. }
  assert (R : forall ps r r', reach ps r = Some r' -> (forall m, In m r -> u m = u 0%nat) -> forall m, In m r' -> u m = u 0%nat).
  { induction ps as [|(k, (a, b)) ps IH]; intros r r' Hr Hm; cbn [reach] in Hr; [injection Hr as <-; exact Hm|].
    destruct ((k <? 120) && existsb (Nat.eqb a) r && ((ff k =? a) && (lf k =? b) || (ff k =? b) && (lf k =? a)))%nat eqn:G; [|discriminate].
    apply andb_true_iff in G. destruct G as (G & G3). apply andb_true_iff in G. destruct G as (G1 & G2). apply Nat.ltb_lt in G1.
    apply existsb_exists in G2. destruct G2 as (a' & G2 & Ea). apply Nat.eqb_eq in Ea. subst a'. specialize (E k G1).
    apply (IH _ _ Hr). intros m [<-|Im]; [|auto]. rewrite <- (Hm a G2).
    apply orb_true_iff in G3. destruct G3 as [G3|G3]; apply andb_true_iff in G3; destruct G3 as (X & Y); apply Nat.eqb_eq in X; apply Nat.eqb_eq in Y; congruence. }
  assert (All : forall m, (m < 24)%nat -> u m = u 0%nat).
  { pose proof reached_check as C. unfold reached in C. destruct (reach paths [0%nat]) as [r|] eqn:Er; [|discriminate]. rewrite forallb_forall in C.
    intros m Hm. specialize (C m (proj2 (in_seq 24 0 m) ltac:(lia))). apply existsb_exists in C. destruct C as (m' & I & Em). apply Nat.eqb_eq in Em. subst m'.
    apply (R paths [0%nat] r Er); [|exact I]. intros t [<-|[]]. reflexivity. }
  destruct shapes as (_ & _ & _ & _ & _ & _ & F1 & _).
  intros i j Hi Hj. destruct (orders4_ok i Hi) as (-> & _), (orders4_ok j Hj) as (-> & _). transitivity (u 0%nat); [|symmetry]; apply All; auto.
Qed.
Example C114_relations_ex : first4 78 = [2; 0; 1; 3]%nat /\ last4 78 = [3; 1; 0; 2]%nat.
Proof. split; vm_compute; reflexivity. Qed.

(** ** C115: the mean of the statistic *)
Lemma overlapping_sum n all : (4 <= n)%nat -> (Z.of_nat (n + 4) < 2 ^ 31)%Z -> lists_orderings (n + 4) all ->
  average all (fun pi => value (statistic true n pi)) = rsum 120 (fun k => IZR (prod k k)) / IZR unitz - rsum 120 (fun k => IZR (lsum S120 (fun l => endz l k * ent k l)%Z)) / IZR unitz / INR n.
Proof.
  intros Hn Hb H. pose proof (lists_length _ _ H) as Pos. assert (Nn : 0 < INR n) by (apply lt_0_INR; lia).
  unfold average. rewrite (lsumR_ext all _ (fun pi => / INR n * rsum 120 (fun i => rsum 120 (fun j => dev n (counted true n pi) i * Pinv i j * dev n (counted true n pi) j)))).
  2:{ intros pi _. rewrite statistic_sum. cbn [value]. field. lra. }
  rewrite lsumR_scale, (average_swap2 all (fun pi => dev n (counted true n pi)) Pinv 120).
  rewrite (rsum_ext _ (fun i => rsum 120 (fun j => Pinv i j * _)) (fun i => INR (length all) * (INR n / IZR unitz * IZR (prod i i) - / IZR unitz * IZR (lsum S120 (fun l => endz l i * ent i l)%Z)))).
  - rewrite <- rsum_scale, rsum_minus, <- !rsum_scale.
    generalize (rsum 120 (fun k => IZR (prod k k))) as p. generalize (rsum 120 (fun k => IZR (lsum S120 (fun l => endz l k * ent k l)%Z))) as e. intros e p. unfold unitz. field. split; lra.
  - intros i Hi. unfold prod. rewrite !lsum_rsum, !rsum_scale, <- rsum_minus, rsum_scale. apply rsum_ext. intros j Hj.
    rewrite (dev_sum true (n + 4) n all i j Hb H ltac:(intros s Hs; cbn; lia) Hi Hj). cbn [start]. rewrite kz_sum by assumption.
    replace (252 * (Z.of_nat n * Z.of_nat n) + Z.of_nat n * covz i j - endz i j - 252 * (Z.of_nat n * Z.of_nat n))%Z with (Z.of_nat n * covz i j - endz i j)%Z by lia.
    assert (Es : endz j i = endz i j) by (unfold endz, lag; lia). rewrite Es, (covz_sym j i).
    rewrite minus_IZR, !mult_IZR, <- INR_IZR_INZ. unfold Pinv, ent, entry, unitz. field.
Qed.
Lemma ends_real : -164670 * IZR unitz <= 10000 * rsum 120 (fun k => IZR (lsum S120 (fun l => endz l k * ent k l)%Z)) <= -164669 * IZR unitz.
Proof.
  rewrite <- lsum_rsum. generalize end_Z. generalize (lsum S120 (fun k => lsum S120 (fun l => endz l k * ent k l)%Z)). intros e (E1 & E2).
  apply IZR_le in E1, E2. rewrite !mult_IZR in E1, E2. split; assumption.
Qed.
Lemma trace_real : Rabs (rsum 120 (fun k => IZR (prod k k)) - 96 * IZR unitz) <= 1000000000.
Proof.
  rewrite <- lsum_rsum. generalize trace_Z. generalize (lsum S120 (fun k => prod k k)). intros t T.
  apply IZR_le in T. rewrite abs_IZR, minus_IZR, mult_IZR in T. exact T.
Qed.
(** With overlap, the average over all orderings of the statistic the program
    computes is 96, the number of degrees of freedom it uses, but for a term in
    1/n and the digits of the table. *)
Theorem C115_overlapping : exists b, 16.4669 <= b <= 16.4670 /\ forall n all, (4 <= n)%nat -> (Z.of_nat (n + 4) < 2 ^ 31)%Z -> lists_orderings (n + 4) all ->
  (forall pi, exists x, statistic true n pi = Ok x) /\
  Rabs (average all (fun pi => value (statistic true n pi)) - (96 + b / INR n)) <= / 10 ^ 11.
Proof.
  pose proof ends_real as EZ. pose proof trace_real as T. pose proof overlapping_sum as Av. revert EZ T Av.
  generalize (rsum 120 (fun k => IZR (prod k k))) as t. generalize (rsum 120 (fun k => IZR (lsum S120 (fun l => endz l k * ent k l)%Z))) as e.
  intros e t (E1 & E2) T Av. exists (- (e / IZR unitz)). split; [unfold unitz in *; split; lra|].
  intros n all Hn Hb H. split; [intro pi; eexists; apply statistic_sum|].
  assert (Nn : 0 < INR n) by (apply lt_0_INR; lia). rewrite (Av n all Hn Hb H).
  replace (t / IZR unitz - e / IZR unitz / INR n - (96 + - (e / IZR unitz) / INR n)) with (/ IZR unitz * (t - 96 * IZR unitz)) by (unfold unitz; field; lra).
  rewrite Rabs_mult, (Rabs_pos_eq (/ _)) by (unfold unitz; lra). unfold unitz in *. lra.
Qed.
(** Without, it is Pearson's statistic of counts of disjoint windows, and its
    average is exactly the 119 degrees of freedom. *)
Theorem C115_disjoint : forall n all, (1 <= n)%nat -> (Z.of_nat (5 + 5 * n) < 2 ^ 31)%Z -> lists_orderings (5 + 5 * n) all ->
  (forall pi, exists x, statistic false n pi = Ok x) /\ average all (fun pi => value (statistic false n pi)) = 119.
Proof.
  intros n all Hn Hb H. pose proof (lists_length _ _ H) as Pos. split; [intro pi; eexists; apply statistic_sum|].
  assert (Nn : 0 < INR n) by (apply lt_0_INR; lia). unfold average.
  rewrite (lsumR_ext all _ (fun pi => 120 / INR n * rsum 120 (fun i => dev n (counted false n pi) i * dev n (counted false n pi) i))).
  2:{ intros pi _. rewrite statistic_sum. cbn [value]. field. lra. }
  rewrite lsumR_scale, lsumR_rsum. rewrite (rsum_ext _ _ (fun _ => INR n * 29988 / 3628800 * INR (length all))).
  - rewrite rsum_const. replace (INR 120) with 120 by (cbn; lra). field. split; lra.
  - intros i Hi. rewrite (dev_sum false (5 + 5 * n) n all i i Hb H ltac:(intros s Hs; cbn [start]; lia) Hi Hi).
    rewrite (kz_apart n (start false) i i ltac:(intros s t Hs Ht D; cbn [start]; lia) Hi Hi), Nat.eqb_refl.
    replace (252 * (Z.of_nat n * Z.of_nat n) + Z.of_nat n * (30240 - 252) - 252 * (Z.of_nat n * Z.of_nat n))%Z with (Z.of_nat n * 29988)%Z by lia.
    rewrite mult_IZR, <- INR_IZR_INZ. reflexivity.
Qed.
(** The p-value is that of the statistic, without its sign, for these numbers of
    degrees of freedom. *)
Theorem C115_pvalue : forall Q g (overlap : bool) n c, exists count x,
  operm_counts g overlap n c = Ok (count, if overlap then (c + 5 + n)%nat else (c + 5 + 5 * n)%nat) /\
  operm_stat reals overlap (Z.of_nat n) count = Ok x /\
  diehard_operm5 reals Q g overlap n c = Ok (Q (if overlap then 96 / 2 else 119 / 2) (Rabs x / 2), if overlap then (c + 5 + n)%nat else (c + 5 + 5 * n)%nat).
Proof.
  intros Q g overlap n c. destruct (PropKperm.C55_operm5_counts g overlap n c) as (count & E & L & _). exists count.
  pose proof (stat_sum overlap n count L) as S. eexists. split; [exact E|]. split; [exact S|].
  unfold diehard_operm5. rewrite E. cbn [bind fst snd]. unfold operm_p. rewrite S. cbn [bind]. destruct overlap; reflexivity.
Qed.
(** the orderings of three numbers, and a list of all orderings exists for every m *)
Example C115_ex : lists_orderings 3 [[0; 1; 2]; [0; 2; 1]; [1; 0; 2]; [1; 2; 0]; [2; 0; 1]; [2; 1; 0]]%nat /\ forall m, exists all, lists_orderings m all.
Proof.
  assert (X : forall m, exists all, lists_orderings m all /\ length all = fact m).
  { intro m. pose proof (restricted_count m (fun _ => false) [] (NoDup_nil _) ltac:(intro x; cbn; intuition discriminate)) as (l & N & I & _).
    assert (LO : lists_orderings m l).
    { split; [exact N|]. intro pi. rewrite I. split; [tauto|]. intro O. split; [exact O|]. clear. induction pi; auto. }
    exists l. split; [exact LO|]. destruct LO. now apply (all_length m). }
  split; [|intro m; destruct (X m) as (all & H & _); now exists all].
  set (l := _ :: _). destruct (X 3%nat) as (all & (N & I) & L).
  assert (Nl : NoDup l) by (repeat constructor; cbn; intuition discriminate).
  split; [exact Nl|]. intro pi. rewrite <- I.
  assert (In1 : incl l all).
  { intros p Hp. apply I. unfold ordering. apply NoDup_Permutation_bis; cbn in Hp; repeat destruct Hp as [<-|Hp]; try contradiction; try (repeat constructor; cbn; intuition discriminate); intros x Hx; cbn in *; lia. }
  split; [apply In1|]. apply (NoDup_length_incl Nl); [rewrite L; cbn; lia|exact In1].
Qed.
Print Assumptions C114_covariance.
Print Assumptions C114_inverse.
Print Assumptions C114_no_more_relations.
Print Assumptions C115_overlapping.
Print Assumptions C115_disjoint.
