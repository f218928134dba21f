(** The law of the number of squeeze steps, through symmetric functions. *)
From Coq Require Import ZArith Reals Lra Lia List Bool.
From Verif Require Import SqueezeSpec KsSpec KsReals.
Import ListNotations.
Open Scope R_scope.

(** ** The law as iterated sums *)
(** the sum of the law over 1, ..., k *)
Definition upto (j k : nat) : R := rsum k (fun i => steps_law j (i + 1)).
Lemma law_S j k : (2 <= k)%nat -> steps_law (S j) k = upto j k / INR k.
Proof. intro K. cbn [steps_law]. destruct (Nat.eqb_spec k 1); [lia|reflexivity]. Qed.
Lemma upto_0 k : upto 0 (S k) = 1.
Proof.
  unfold upto. induction k as [|k IH]; cbn [rsum].
  - cbn. ring.
  - cbn [rsum] in IH. rewrite IH. cbn [steps_law]. destruct (Nat.eqb_spec (S k + 1) 1); [lia|ring].
Qed.
Lemma upto_1 j : upto (S j) 1 = 0.
Proof. unfold upto. cbn. ring. Qed.
Lemma upto_step j k : upto (S j) (S (S k)) = upto (S j) (S k) + upto j (S (S k)) / INR (S (S k)).
Proof.
  unfold upto at 1. cbn [rsum]. fold (upto (S j)). change (rsum k (fun i => steps_law (S j) (i + 1)) + steps_law (S j) (k + 1)) with (upto (S j) (S k)).
  f_equal. rewrite law_S by lia. now replace (S k + 1)%nat with (S (S k)) by lia.
Qed.
Lemma law_pos : forall j k, (1 <= k)%nat -> 0 <= steps_law j k.
Proof.
  induction j as [|j IH]; intros k K; cbn [steps_law]; destruct (Nat.eqb_spec k 1); try lra.
  apply Rmult_le_pos; [|apply Rlt_le, Rinv_0_lt_compat, lt_0_INR; lia].
  assert (G : forall q, 0 <= rsum q (fun i => steps_law j (i + 1))) by (induction q as [|m IHm]; cbn [rsum]; [lra|]; specialize (IH (m + 1)%nat ltac:(lia)); lra).
  apply G.
Qed.
Lemma upto_pos j k : 0 <= upto j k.
Proof. unfold upto. induction k as [|k IH]; cbn [rsum]; [lra|]. pose proof (law_pos j (k + 1) ltac:(lia)). lra. Qed.

(** ** Newton's identity *)
(** the sum of (1/i)^m over 2 <= i <= k+1 *)
Definition psum (m k : nat) : R := rsum k (fun i => (/ INR (i + 2)) ^ m).
Definition conv (p : nat -> R) (h : nat -> R) (n : nat) : R := rsum n (fun m => p (S m) * h (n - 1 - m)%nat).
Lemma rsum_first n f : rsum (S n) f = f O + rsum n (fun i => f (S i)).
Proof. induction n as [|n IH]; [cbn; ring|]. change (rsum (S (S n)) f) with (rsum (S n) f + f (S n)). rewrite IH. cbn [rsum]. ring. Qed.
Lemma conv_geo x h n : conv (fun m => x ^ m) h (S n) = x * h n + x * conv (fun m => x ^ m) h n.
Proof.
  unfold conv. rewrite rsum_first, rsum_scale. f_equal.
  - replace (S n - 1 - 0)%nat with n by lia. cbn. ring.
  - apply rsum_ext. intros i I. replace (S n - 1 - S i)%nat with (n - 1 - i)%nat by lia. cbn [pow]. ring.
Qed.
Lemma conv_split p h h' x n : (h O = h' O) -> (forall n, h' (S n) = h (S n) + x * h' n) -> conv p h (S n) = conv p h' (S n) - x * conv p h' n.
Proof.
  intros H0 H. unfold conv at 1 2. cbn [rsum]. replace (S n - 1 - n)%nat with 0%nat by lia. rewrite H0.
  replace (rsum n (fun m => p (S m) * h (S n - 1 - m)%nat)) with (rsum n (fun m => p (S m) * h' (S n - 1 - m)%nat) - x * conv p h' n); [ring|].
  unfold conv. rewrite rsum_scale. unfold Rminus. 
  replace (- rsum n (fun i => x * (p (S i) * h' (n - 1 - i)%nat))) with (rsum n (fun i => - 1 * (x * (p (S i) * h' (n - 1 - i)%nat)))) by (rewrite <- rsum_scale; ring).
  rewrite rsum_plus. apply rsum_ext. intros i I. replace (S n - 1 - i)%nat with (S (n - 1 - i)) by lia. rewrite H. ring.
Qed.
Lemma newton : forall k n, INR n * upto n (S k) = conv (fun m => psum m k) (fun j => upto j (S k)) n.
Proof.
  induction k as [|k IH]; intro n.
  - destruct n as [|n]; [cbn; ring|]. rewrite upto_1. unfold conv. rewrite (rsum_ext _ _ (fun _ => 0)); [rewrite rsum_zero; ring|]. intros i _. cbn [psum rsum]. ring.
  - set (x := / INR (S (S k))). set (h' := fun j => upto j (S (S k))). set (h := fun j => upto j (S k)) in *.
    assert (E : forall j, conv (fun m => psum m (S k)) h' j = conv (fun m => psum m k) h' j + conv (fun m => x ^ m) h' j).
    { intro j. unfold conv. rewrite rsum_plus. apply rsum_ext. intros i _. unfold psum. cbn [rsum]. replace (k + 2)%nat with (S (S k)) by lia. fold x. ring. }
    induction n as [|n IHn]; [unfold conv; cbn; ring|].
    rewrite E, conv_geo. 
    assert (H1 : h' (S n) = h (S n) + x * h' n) by (unfold h', h, x; rewrite upto_step; unfold Rdiv; ring).
    pose proof (conv_split (fun m => psum m k) h h' x n) as C. rewrite <- IH in C. fold h' in IHn.
    assert (C2 : INR (S n) * h (S n) = conv (fun m => psum m k) h' (S n) - x * conv (fun m => psum m k) h' n).
    { apply C; [unfold h, h'; now rewrite !upto_0|]. intro j. unfold h', h, x. rewrite upto_step. unfold Rdiv. ring. }
    clear C. rewrite E in IHn. change (upto (S n) (S (S k))) with (h' (S n)). change (upto n (S (S k))) with (h' n) in IHn. rewrite H1, Rmult_plus_distr_l, C2, S_INR.
    replace ((INR n + 1) * (x * h' n)) with (x * (INR n * h' n) + x * h' n) by ring. rewrite IHn. ring.
Qed.

(** ** Bounds in fixed-point arithmetic *)
Definition one : Z := 2 ^ 60.
Definition fx (z : Z) : R := IZR z / IZR one.
Fixpoint dot (a b : list Z) : Z := match a, b with x :: a, y :: b => (x * y + dot a b)%Z | _, _ => 0%Z end.
(** [h] is the list of the bounds for n-1, ..., 0; the result has the next ones in front *)
Definition next_lo (p h : list Z) : list Z := (dot p h / (Z.of_nat (length h) * one))%Z :: h.
Definition next_hi (p h : list Z) : list Z := (dot p h / (Z.of_nat (length h) * one) + 1)%Z :: h.
Fixpoint iterate (f : list Z -> list Z) (n : nat) (h : list Z) : list Z := match n with O => h | S n => iterate f n (f h) end.
Lemma one_pos : 0 < IZR one.
Proof. apply IZR_lt. reflexivity. Qed.
Lemma fx_mul a b : fx a * fx b = IZR (a * b) / (IZR one * IZR one).
Proof. unfold fx. rewrite mult_IZR. field. pose proof one_pos. lra. Qed.
(** a list bounds a sequence of numbers, the first elements of the list the last numbers *)
Definition below (l : list Z) (f : nat -> R) : Prop := forall i, (i < length l)%nat -> 0 <= fx (nth i l 0%Z) <= f i.
Definition above (l : list Z) (f : nat -> R) : Prop := forall i, (i < length l)%nat -> f i <= fx (nth i l 0%Z).
Lemma dot_below : forall p h P H, below p P -> below h H -> (length h <= length p)%nat -> IZR (dot p h) / (IZR one * IZR one) <= rsum (length h) (fun i => P i * H i).
Proof.
  pose proof one_pos. induction p as [|a p IH]; intros [|b h] P H' Bp Bh L; cbn [dot length rsum] in *; try lia; try (unfold Rdiv; lra).
  change (rsum (length h) (fun i => P i * H' i) + P (length h) * H' (length h)) with (rsum (S (length h)) (fun i => P i * H' i)). rewrite rsum_first.
  rewrite plus_IZR. unfold Rdiv. rewrite Rmult_plus_distr_r. fold (IZR (a * b) / (IZR one * IZR one)). rewrite <- fx_mul. fold (IZR (dot p h) / (IZR one * IZR one)).
  apply Rplus_le_compat.
  - destruct (Bp O ltac:(cbn; lia)), (Bh O ltac:(cbn; lia)). cbn [nth] in *. now apply Rmult_le_compat.
  - apply (IH h (fun i => P (S i)) (fun i => H' (S i))); [|intros i I; apply (Bh (S i)); cbn; lia|lia]. intros i I. apply (Bp (S i)). cbn. lia.
Qed.
Lemma dot_above : forall p h P H, above p P -> above h H -> (forall i, 0 <= P i) -> (forall i, 0 <= H i) -> (length h <= length p)%nat -> rsum (length h) (fun i => P i * H i) <= IZR (dot p h) / (IZR one * IZR one).
Proof.
  pose proof one_pos. induction p as [|a p IH]; intros [|b h] P H' Bp Bh P0 H0 L; cbn [dot length rsum] in *; try lia; try (unfold Rdiv; lra).
  change (rsum (length h) (fun i => P i * H' i) + P (length h) * H' (length h)) with (rsum (S (length h)) (fun i => P i * H' i)). rewrite rsum_first.
  rewrite plus_IZR. unfold Rdiv. rewrite Rmult_plus_distr_r. fold (IZR (a * b) / (IZR one * IZR one)). rewrite <- fx_mul. fold (IZR (dot p h) / (IZR one * IZR one)).
  apply Rplus_le_compat.
  - pose proof (Bp O ltac:(cbn; lia)). pose proof (Bh O ltac:(cbn; lia)). cbn [nth] in *. now apply Rmult_le_compat.
  - apply (IH h (fun i => P (S i)) (fun i => H' (S i))); auto; [|intros i I; apply (Bh (S i)); cbn; lia|lia]. intros i I. apply (Bp (S i)). cbn. lia.
Qed.
Lemma div_below a n x : (0 < n)%Z -> IZR a / (IZR one * IZR one) <= IZR n * x -> fx (a / (n * one)) <= x.
Proof.
  intros N H. pose proof one_pos as O. assert (NR : 0 < IZR n) by (now apply IZR_lt).
  apply Rmult_le_reg_l with (IZR n); [exact NR|]. apply Rle_trans with (2 := H). unfold fx.
  apply Rmult_le_reg_r with (IZR one * IZR one); [nra|].
  replace (IZR n * (IZR (a / (n * one)) / IZR one) * (IZR one * IZR one)) with (IZR (n * one) * IZR (a / (n * one))) by (rewrite mult_IZR; field; lra).
  replace (IZR a / (IZR one * IZR one) * (IZR one * IZR one)) with (IZR a) by (field; lra).
  rewrite <- mult_IZR. apply IZR_le. apply Z.mul_div_le. unfold one. nia.
Qed.
Lemma div_above a n x : (0 < n)%Z -> IZR n * x <= IZR a / (IZR one * IZR one) -> x <= fx (a / (n * one) + 1).
Proof.
  intros N H. pose proof one_pos as O. assert (NR : 0 < IZR n) by (now apply IZR_lt).
  apply Rmult_le_reg_l with (IZR n); [exact NR|]. apply Rle_trans with (1 := H). unfold fx.
  apply Rmult_le_reg_r with (IZR one * IZR one); [nra|].
  replace (IZR n * (IZR (a / (n * one) + 1) / IZR one) * (IZR one * IZR one)) with (IZR (n * one) * IZR (a / (n * one) + 1)) by (rewrite mult_IZR; field; lra).
  replace (IZR a / (IZR one * IZR one) * (IZR one * IZR one)) with (IZR a) by (field; lra).
  rewrite <- mult_IZR. apply IZR_le. assert (0 < n * one)%Z by (unfold one; nia). pose proof (Z.mul_succ_div_gt a (n * one) ltac:(assumption)). unfold Z.succ in *. lia.
Qed.
Lemma psum_pos m k : 0 <= psum m k.
Proof. unfold psum. induction k as [|k' IH]; cbn [rsum]; [lra|]. assert (0 < (/ INR (k' + 2)) ^ m) by (apply pow_lt, Rinv_0_lt_compat, lt_0_INR; lia). lra. Qed.
Section Bounds.
Variable k : nat.
Variables lo hi : list Z.
Hypothesis Hlo : below lo (fun i => psum (S i) k).
Hypothesis Hhi : above hi (fun i => psum (S i) k).
Hypothesis Plo : Forall (fun z => 0 <= z)%Z lo.
Definition last_first (n : nat) : nat -> R := fun i => upto (n - 1 - i) (S k).
Lemma conv_rsum n : conv (fun m => psum m k) (fun j => upto j (S k)) n = rsum n (fun i => psum (S i) k * last_first n i).
Proof. reflexivity. Qed.
Lemma dot_nonneg : forall p h, Forall (fun z => 0 <= z)%Z p -> Forall (fun z => 0 <= z)%Z h -> (0 <= dot p h)%Z.
Proof.
  induction p as [|a p IH]; intros [|b h] Hp Hh; cbn [dot]; try lia. inversion Hp; inversion Hh; subst. specialize (IH h ltac:(assumption) ltac:(assumption)). nia.
Qed.
Lemma lo_ok : forall n h, (1 <= length h)%nat -> (length h + n <= S (length lo))%nat -> below h (last_first (length h)) -> Forall (fun z => 0 <= z)%Z h ->
  let r := iterate (next_lo lo) n h in length r = (length h + n)%nat /\ below r (last_first (length r)).
Proof.
  induction n as [|n IH]; intros h L1 L B F; cbn [iterate]; [cbv zeta; split; [lia|exact B]|].
  assert (NZ : (0 < Z.of_nat (length h))%Z) by lia.
  assert (D0 : (0 <= dot lo h / (Z.of_nat (length h) * one))%Z) by (apply Z.div_pos; [now apply dot_nonneg|unfold one; nia]).
  destruct (IH (next_lo lo h)) as (R1 & R2).
  - cbn. lia.
  - unfold next_lo. cbn [length]. lia.
  - intros i I. unfold next_lo in *. cbn [length] in *. destruct i as [|i]; cbn [nth].
    + split; [unfold fx; pose proof one_pos; apply Rmult_le_pos; [now apply IZR_le|apply Rlt_le, Rinv_0_lt_compat; lra]|].
      unfold last_first. replace (S (length h) - 1 - 0)%nat with (length h) by lia. apply div_below; [exact NZ|].
      rewrite <- INR_IZR_INZ, newton, conv_rsum. apply dot_below; auto. lia.
    + unfold last_first. replace (S (length h) - 1 - S i)%nat with (length h - 1 - i)%nat by lia. apply B. lia.
  - unfold next_lo. constructor; assumption.
  - cbv zeta. split; [|exact R2]. rewrite R1. unfold next_lo. cbn [length]. lia.
Qed.
Lemma hi_ok : forall n h, (1 <= length h)%nat -> (length h + n <= S (length hi))%nat -> above h (last_first (length h)) ->
  let r := iterate (next_hi hi) n h in length r = (length h + n)%nat /\ above r (last_first (length r)).
Proof.
  induction n as [|n IH]; intros h L1 L B; cbn [iterate]; [cbv zeta; split; [lia|exact B]|].
  assert (NZ : (0 < Z.of_nat (length h))%Z) by lia.
  destruct (IH (next_hi hi h)) as (R1 & R2).
  - cbn. lia.
  - unfold next_hi. cbn [length]. lia.
  - intros i I. unfold next_hi in *. cbn [length] in *. destruct i as [|i]; cbn [nth].
    + unfold last_first. replace (S (length h) - 1 - 0)%nat with (length h) by lia. apply div_above; [exact NZ|].
      rewrite <- INR_IZR_INZ, newton, conv_rsum. apply dot_above; auto; [intro; apply psum_pos|intro; apply upto_pos|lia].
    + unfold last_first. replace (S (length h) - 1 - S i)%nat with (length h - 1 - i)%nat by lia. apply B. lia.
  - cbv zeta. split; [|exact R2]. rewrite R1. unfold next_hi. cbn [length]. lia.
Qed.
Lemma upto_bounds n : (n <= length lo)%nat -> (n <= length hi)%nat -> forall j, (j <= n)%nat ->
  fx (nth (n - j) (iterate (next_lo lo) n [one]) 0%Z) <= upto j (S k) <= fx (nth (n - j) (iterate (next_hi hi) n [one]) 0%Z).
Proof.
  intros L1 L2 j J. assert (F1 : fx one = 1) by (unfold fx; field; pose proof one_pos; lra).
  destruct (lo_ok n [one]) as (A1 & A2); [cbn; lia|cbn; lia| |repeat constructor; unfold one; lia|].
  { intros i I. cbn in I. destruct i; [|lia]. cbn [nth length]. unfold last_first. cbn [Nat.sub]. rewrite upto_0, F1. lra. }
  destruct (hi_ok n [one]) as (B1 & B2); [cbn; lia|cbn; lia| |].
  { intros i I. cbn in I. destruct i; [|lia]. cbn [nth length]. unfold last_first. cbn [Nat.sub]. rewrite upto_0, F1. lra. }
  cbn [length] in *. rewrite A1 in A2. rewrite B1 in B2.
  specialize (A2 (n - j)%nat ltac:(rewrite A1; lia)). specialize (B2 (n - j)%nat ltac:(rewrite B1; lia)). unfold last_first in *.
  replace (1 + n - 1 - (n - j))%nat with j in * by lia. lra.
Qed.
End Bounds.
