(** Real-number lemmas for the law of the operm5 statistic. *)
From Coq Require Import Lia Lra Bool.
From Verif Require Import BaseLemmas KsLemmas3.
From Verif Require Export OpermStatSpec OpermInverse.
Open Scope R_scope.

(** ** from sums of integers to sums of reals *)
Lemma lsum_rsum n f : IZR (lsum (seq 0 n) f) = rsum n (fun k => IZR (f k)).
Proof.
  induction n as [|n IH]; [reflexivity|]. rewrite seq_S, lsum_app, plus_IZR, IH. cbn [rsum Nat.add]. f_equal.
  rewrite lsum_cons. change (@lsum nat [] f) with 0%Z. now rewrite Z.add_0_r.
Qed.
Lemma lsumR_ext {A} (l : list A) f g : (forall x, In x l -> f x = g x) -> lsumR l f = lsumR l g.
Proof. induction l as [|x l IH]; intro H; [reflexivity|]. cbn [lsumR]. rewrite (H x), IH; [reflexivity| |now left]. intros; apply H; now right. Qed.
Lemma lsumR_scale {A} (l : list A) c f : lsumR l (fun x => c * f x) = c * lsumR l f.
Proof. induction l as [|x l IH]; cbn [lsumR]; [ring|]. rewrite IH. ring. Qed.
Lemma lsumR_plus {A} (l : list A) f g : lsumR l (fun x => f x + g x) = lsumR l f + lsumR l g.
Proof. induction l as [|x l IH]; cbn [lsumR]; [ring|]. rewrite IH. ring. Qed.
Lemma lsumR_IZR {A} (l : list A) f : lsumR l (fun x => IZR (f x)) = IZR (lsum l f).
Proof. induction l as [|x l IH]; [reflexivity|]. cbn [lsumR]. rewrite lsum_cons, plus_IZR, IH. reflexivity. Qed.
Lemma lsumR_rsum {A} (l : list A) n f : lsumR l (fun x => rsum n (f x)) = rsum n (fun k => lsumR l (fun x => f x k)).
Proof.
  induction n as [|n IH]; cbn [rsum]; [|rewrite <- IH, <- lsumR_plus; reflexivity].
  induction l as [|x l IH]; cbn [lsumR]; [ring|]. rewrite IH. ring.
Qed.
Lemma rsum_abs n f : Rabs (rsum n f) <= rsum n (fun k => Rabs (f k)).
Proof. induction n as [|n IH]; cbn [rsum]; [rewrite Rabs_R0; lra|]. eapply Rle_trans; [apply Rabs_triang|]. lra. Qed.
Lemma rsum_le n f g : (forall k, (k < n)%nat -> f k <= g k) -> rsum n f <= rsum n g.
Proof. induction n as [|n IH]; intro H; cbn [rsum]; [lra|]. pose proof (H n ltac:(lia)). specialize (IH (fun k K => H k ltac:(lia))). lra. Qed.
Lemma rsum_const n c : rsum n (fun _ => c) = INR n * c.
Proof. induction n as [|n IH]; cbn [rsum]; [cbn; ring|]. rewrite IH, S_INR. ring. Qed.
Lemma rsum_minus n f g : rsum n (fun k => f k - g k) = rsum n f - rsum n g.
Proof. induction n as [|n IH]; cbn [rsum]; [ring|]. rewrite IH. ring. Qed.
Lemma rsum_nonneg n f : (forall k, (k < n)%nat -> 0 <= f k) -> 0 <= rsum n f.
Proof. intro H. pose proof (rsum_le n (fun _ => 0) f H). rewrite rsum_zero in H0. exact H0. Qed.
Lemma rsum_zero_all n f : (forall k, (k < n)%nat -> 0 <= f k) -> rsum n f <= 0 -> forall k, (k < n)%nat -> f k = 0.
Proof.
  induction n as [|n IH]; intros H Z k Hk; [lia|]. cbn [rsum] in Z. pose proof (rsum_nonneg n f (fun k K => H k ltac:(lia))). pose proof (H n ltac:(lia)).
  destruct (Nat.eq_dec k n) as [->|Ne]; [lra|]. apply IH; [intros; apply H; lia|lra|lia].
Qed.

(** ** the loops of the program *)
Lemma for_rsum n (F : Z -> R -> outcome R) f s : (forall i s, (i < n)%nat -> F (Z.of_nat i) s = Ok (s + f i)) -> for_ n 0 F s = Ok (s + rsum n f).
Proof.
  intro H. destruct (for_inv (fun i t => t = s + rsum (Z.to_nat i) f) F n 0 s) as (t & E & P).
  - cbn. ring.
  - intros j t J ->. exists (s + rsum (Z.to_nat (j + 1)) f). split; [|reflexivity]. replace j with (Z.of_nat (Z.to_nat j)) at 1 by lia. rewrite H by lia.
    replace (Z.to_nat (j + 1)) with (S (Z.to_nat j)) by lia. cbn [rsum]. f_equal. ring.
  - rewrite E, P, Z.add_0_l, Nat2Z.id. reflexivity.
Qed.
Lemma pseudoInv_ok i j : (i < 120)%nat -> (j < 120)%nat -> pseudoInv reals (Z.of_nat i) (Z.of_nat j) = Ok (Pinv i j).
Proof.
  intros Hi Hj. destruct shapes as (_ & P & _ & PR & _). unfold pseudoInv. rewrite (get_nat []) by lia. cbn [bind]. rewrite (get_nat 0%Z) by (rewrite PR; lia). cbn [bind].
  cbn [nlit reals]. unfold Pinv. rewrite pow_IZR. reflexivity.
Qed.
Definition dev (n : nat) (count : nat -> R) (i : nat) : R := count i - INR n / 120.
Lemma stat_sum (overlap : bool) n count : length count = 120%nat ->
  let x := dev n (fun i => IZR (Z.of_N (nth i count 0%N))) in
  operm_stat reals overlap (Z.of_nat n) count =
    Ok (if overlap then rsum 120 (fun i => rsum 120 (fun j => x i * Pinv i j * x j)) / INR n else rsum 120 (fun i => x i * x i) / (INR n / 120)).
Proof.
  intros L x. unfold operm_stat. set (av := ndiv reals _ _). assert (EA : av = INR n / 120).
  { unfold av. change (IZR (Z.of_nat n) / (120 / 1) = INR n / 120). rewrite <- INR_IZR_INZ. field. }
  destruct (flat_loop (nint reals 0) (fun t _ => x t) (fun i x => do c <- aget count i ;; aset x i (nsub reals (nint reals (Z.of_N c)) av)) 120 (repeat (nint reals 0) 120) eq_refl) as (xs & -> & LX & HX).
  { intros i C Hi LC. rewrite (get_ok 0%N) by lia. cbn [bind]. rewrite put_ok by (exact (nint reals 0) || lia). cbn [nsub nint reals]. rewrite EA. reflexivity. }
  cbn [bind]. assert (GX : forall i, (i < 120)%nat -> aget xs (Z.of_nat i) = Ok (x i)) by (intros i Hi; rewrite (get_nat (nint reals 0)) by lia; now rewrite HX).
  destruct overlap.
  - rewrite (for_rsum 120 _ (fun i => rsum 120 (fun j => x i * Pinv i j * x j))).
    + cbn [bind ndiv nint reals]. rewrite <- INR_IZR_INZ. do 2 f_equal. ring.
    + intros i s Hi. apply for_rsum. intros j t Hj. rewrite GX by exact Hi. cbn [bind]. rewrite pseudoInv_ok by assumption. cbn [bind]. rewrite GX by exact Hj. reflexivity.
  - rewrite (for_rsum 120 _ (fun i => x i * x i)).
    + cbn [bind ndiv reals]. rewrite EA. cbn [nint reals]. do 2 f_equal. ring.
    + intros i s Hi. rewrite GX by exact Hi. reflexivity.
Qed.

(** ** averages *)
Definition start (overlap : bool) (s : nat) : nat := if overlap then s else (5 + 5 * s)%nat.
Lemma counted_cnt overlap n pi i : (i < 120)%nat -> counted overlap n pi i = IZR (cnt n (start overlap) i pi).
Proof.
  intro Hi. unfold counted. destruct (count_hits pi overlap n) as (counts & c & E & _ & H). unfold results. rewrite E, H by exact Hi. reflexivity.
Qed.
Lemma statistic_sum (overlap : bool) n pi :
  let x := dev n (counted overlap n pi) in
  statistic overlap n pi =
    Ok (if overlap then rsum 120 (fun i => rsum 120 (fun j => x i * Pinv i j * x j)) / INR n else rsum 120 (fun i => x i * x i) / (INR n / 120)).
Proof.
  intro x. unfold statistic. destruct (count_hits pi overlap n) as (counts & c & E & L & _). unfold results at 1. rewrite E. cbn [bind fst].
  rewrite stat_sum by exact L.
  replace x with (dev n (fun i => IZR (Z.of_N (nth i counts 0%N)))); [reflexivity|].
  unfold x, counted, results. rewrite E. reflexivity.
Qed.
Lemma dev_sum overlap m n all i j : (Z.of_nat m < 2 ^ 31)%Z -> lists_orderings m all -> (forall s, (s < n)%nat -> (start overlap s + 5 <= m)%nat) -> (i < 120)%nat -> (j < 120)%nat ->
  lsumR all (fun pi => dev n (counted overlap n pi) i * dev n (counted overlap n pi) j) =
  IZR (lsum (seq 0 n) (fun s => lsum (seq 0 n) (fun t => kz (start overlap s) (start overlap t) i j)) - 252 * (Z.of_nat n * Z.of_nat n)) / 3628800 * INR (length all).
Proof.
  intros Hb (Hnd & Hall) Hst Hi Hj. pose proof (covariance_sum m n (start overlap) all i j Hb Hnd Hall Hst Hi Hj) as C.
  apply (f_equal IZR) in C. rewrite !mult_IZR in C. rewrite <- lsumR_IZR in C. rewrite <- (INR_IZR_INZ (length all)) in C.
  set (K := IZR (_ - _)) in *.
  rewrite (lsumR_ext all _ (fun pi => / 14400 * IZR ((120 * cnt n (start overlap) i pi - Z.of_nat n) * (120 * cnt n (start overlap) j pi - Z.of_nat n)))).
  - rewrite lsumR_scale. set (X := lsumR all _) in *. lra.
  - intros pi _. unfold dev. rewrite !counted_cnt by assumption. rewrite mult_IZR, !minus_IZR, !mult_IZR, INR_IZR_INZ. field.
Qed.
Lemma lists_length m all : lists_orderings m all -> (0 < INR (length all)).
Proof. intros (A & B). rewrite (all_length m all A B). apply lt_0_INR. pose proof (lt_O_fact m). lia. Qed.
Lemma average_swap2 {A} (all : list A) x (Q : nat -> nat -> R) n : lsumR all (fun pi => rsum n (fun i => rsum n (fun j => x pi i * Q i j * x pi j))) =
  rsum n (fun i => rsum n (fun j => Q i j * lsumR all (fun pi => x pi i * x pi j))).
Proof.
  rewrite lsumR_rsum. apply rsum_ext. intros i _. rewrite lsumR_rsum. apply rsum_ext. intros j _. rewrite <- lsumR_scale. apply lsumR_ext. intros; ring.
Qed.
