(** The Kolmogorov-Smirnov test read with real numbers. *)
From Coq Require Import ZArith Reals Lra Lia List Bool.
From Flocq Require Import Core.
From Verif Require Import KsModel KsSpec KsLemmas3 KsLemmas4 BaseLemmas.
Import ListNotations.
Open Scope R_scope.

(** The arithmetic the program means to approximate. *)
Definition reals : arith := {|
  num := R; nadd := Rplus; nsub := Rminus; nmul := Rmult; ndiv := Rdiv; nneg := Ropp; nabs := Rabs; nsqrt := sqrt;
  ngt := (fun x y => if Rlt_dec y x then true else false); nint := IZR; nlit := (fun n d => IZR n / IZR d);
  e140 := 10 ^ 140; em140 := / 10 ^ 140; ntrunc := (fun x => Some (Ztrunc x)); npow := powerRZ; nexp := exp |}.

(** ** Sums and matrices *)
Lemma rsum_ext n f g : (forall k, (k < n)%nat -> f k = g k) -> rsum n f = rsum n g.
Proof. induction n as [|n IH]; intro H; cbn [rsum]; [reflexivity|]. rewrite IH, H by (intros; try apply H; lia). reflexivity. Qed.
Lemma rsum_scale n c f : c * rsum n f = rsum n (fun k => c * f k).
Proof. induction n as [|n IH]; cbn [rsum]; [ring|]. rewrite <- IH. ring. Qed.
Lemma rsum_plus n f g : rsum n f + rsum n g = rsum n (fun k => f k + g k).
Proof. induction n as [|n IH]; cbn [rsum]; [ring|]. rewrite <- IH. ring. Qed.
Lemma rsum_zero n : rsum n (fun _ => 0) = 0.
Proof. induction n as [|n IH]; cbn [rsum]; [ring|]. rewrite IH. ring. Qed.
Lemma rsum_swap n m f : rsum n (fun i => rsum m (fun j => f i j)) = rsum m (fun j => rsum n (fun i => f i j)).
Proof.
  induction n as [|n IH]; cbn [rsum]; [symmetry; apply rsum_zero|]. rewrite IH. apply rsum_plus.
Qed.
Lemma rsum_single n f k : (k < n)%nat -> (forall j, (j < n)%nat -> j <> k -> f j = 0) -> rsum n f = f k.
Proof.
  induction n as [|n IH]; intros L H; [lia|]. cbn [rsum]. destruct (Nat.eq_dec k n) as [->|N].
  - rewrite (rsum_ext n f (fun _ => 0)) by (intros; apply H; lia). rewrite rsum_zero. ring.
  - rewrite IH by (try lia; intros; apply H; lia). rewrite (H n) by lia. ring.
Qed.
Section Mat.
Variable m : nat.
Definition meq (X Y : mat) : Prop := forall i j, (i < m)%nat -> (j < m)%nat -> X i j = Y i j.
Lemma mmul_ext X X' Y Y' : meq X X' -> meq Y Y' -> meq (mmul m X Y) (mmul m X' Y').
Proof. intros H G i j I J. unfold mmul. apply rsum_ext. intros k K. now rewrite H, G by auto. Qed.
Lemma mmul_assoc X Y Z : meq (mmul m X (mmul m Y Z)) (mmul m (mmul m X Y) Z).
Proof.
  intros i j I J. unfold mmul.
  rewrite (rsum_ext _ _ (fun k => rsum m (fun l => X i k * (Y k l * Z l j)))) by (intros; apply rsum_scale).
  rewrite rsum_swap. apply rsum_ext. intros l L. rewrite Rmult_comm, rsum_scale. apply rsum_ext. intros k K. ring.
Qed.
Lemma mone_l X : meq (mmul m mone X) X.
Proof.
  intros i j I J. unfold mmul, mone. rewrite (rsum_single m _ i I).
  - rewrite Nat.eqb_refl. ring.
  - intros k K N. destruct (Nat.eqb_spec i k); [congruence|ring].
Qed.
Lemma mone_r X : meq (mmul m X mone) X.
Proof.
  intros i j I J. unfold mmul, mone. rewrite (rsum_single m _ j J).
  - rewrite Nat.eqb_refl. ring.
  - intros k K N. destruct (Nat.eqb_spec k j); [congruence|ring].
Qed.
Lemma mpower_add X a b : meq (mpower m X (a + b)) (mmul m (mpower m X a) (mpower m X b)).
Proof.
  induction a as [|a IH]; cbn [Nat.add mpower].
  - intros i j I J. symmetry. now apply mone_l.
  - intros i j I J. rewrite <- mmul_assoc by auto. apply mmul_ext; auto. intros ? ?; reflexivity.
Qed.
End Mat.

Lemma dot_rsum X Y m i j n : dot reals X Y m i j n = rsum n (fun k => nth (i * m + k) X 0 * nth (k * m + j) Y 0).
Proof. induction n as [|n IH]; cbn [dot rsum]; [reflexivity|]. rewrite IH. reflexivity. Qed.
Lemma shrink_val c (v : R) : shrink reals c v * 10 ^ (140 * c) = v.
Proof.
  induction c as [|c IH]; cbn [shrink]; [cbn; ring|]. change (nmul reals) with Rmult. change (em140 reals) with (/ 10 ^ 140).
  replace (140 * S c)%nat with (140 + 140 * c)%nat by lia. rewrite pow_add.
  rewrite <- IH at 2. assert (NZ : 10 ^ 140 <> 0) by (apply pow_nonzero; lra).
  generalize dependent (10 ^ 140). intros. field. exact NZ.
Qed.

(** ** mPower computes powers *)
Lemma ten : 10 <> 0. Proof. lra. Qed.
Lemma pow10_add a b : powerRZ 10 (a + b) = powerRZ 10 a * powerRZ 10 b.
Proof. apply powerRZ_add, ten. Qed.
Lemma pow10_140 c : powerRZ 10 (140 * Z.of_nat c) = 10 ^ (140 * c).
Proof. rewrite pow_powerRZ. f_equal. lia. Qed.
Definition power_at (m : nat) (X : mat) (k : Z) (V : list R) (e : Z) : Prop := (0 <= e)%Z /\ (1 <= k)%Z /\
  forall i j, (i < m)%nat -> (j < m)%nat -> nth (i * m + j) V 0 * powerRZ 10 e = mpower m X (Z.to_nat k) i j.
Lemma mPower_real m (X : list R) V n : length X = (m * m)%nat -> length V = (m * m)%nat -> (1 <= n < 2 ^ 32)%Z ->
  exists V' e, mPower reals 32 X 0 V m n = Ok (V', e) /\ length V' = (m * m)%nat /\
    power_at m (fun i j => nth (i * m + j) X 0) n V' e.
Proof.
  intros LX LV N. apply mPower_ok; auto.
  - intros k V1 W e (L & S) (E & K & H). split; [exact E|]. split; [exact K|]. intros i j I J. change 0 with (nint reals 0).
    rewrite S by nia. now apply H.
  - split; [lia|]. split; [lia|]. intros i j I J. change (Z.to_nat 1) with 1%nat. cbn [mpower].
    rewrite mone_r by auto. cbn [powerRZ]. cbv beta. apply Rmult_1_r.
  - intros k W e B LW (E & K & H) (LB & HB). split; [lia|]. split; [lia|]. intros i j I J.
    change 0 with (nint reals 0). rewrite HB, dot_rsum by auto.
    replace (Z.to_nat (2 * k)) with (Z.to_nat k + Z.to_nat k)%nat by lia. rewrite mpower_add by auto.
    replace (2 * e)%Z with (e + e)%Z by lia. rewrite pow10_add. rewrite Rmult_comm, rsum_scale. unfold mmul. apply rsum_ext.
    intros l L. rewrite <- !H by auto. cbv beta. change (nint reals 0) with 0. change (num reals) with R. ring.
  - intros k W e B LW (E & K & H) (LB & HB). split; [lia|]. split; [lia|]. intros i j I J.
    change 0 with (nint reals 0). rewrite HB, dot_rsum by auto.
    replace (Z.to_nat (k + 1)) with (S (Z.to_nat k)) by lia. cbn [mpower]. rewrite Z.add_0_l.
    rewrite Rmult_comm, rsum_scale. unfold mmul. apply rsum_ext.
    intros l L. rewrite <- !H by auto. cbv beta. change (nint reals 0) with 0. change (num reals) with R. ring.
  - intros k W e W' c LW LW' (E & K & H) S. split; [lia|]. split; [lia|]. intros i j I J.
    change 0 with (nint reals 0). rewrite S by nia. rewrite pow10_add, pow10_140. rewrite <- H by auto.
    set (v := nth (i * m + j) W (nint reals 0)). change (nth (i * m + j) W 0) with v.
    rewrite <- (shrink_val c v) at 2. change (num reals) with R. ring.
Qed.

(** ** The matrix H *)
Lemma divs_val n (x : R) : divs reals n x = x / INR (fact n).
Proof.
  induction n as [|n IH]; cbn [divs]; [change (x = x / 1); field|]. rewrite IH. change (ndiv reals) with Rdiv. change (nint reals) with IZR.
  rewrite <- INR_IZR_INZ. rewrite fact_simpl, mult_INR. change (num reals) with R.
  field. split; [apply INR_fact_neq_0|]. apply not_0_INR. lia.
Qed.
Lemma H_real m (h : R) a b : (0 < m)%nat -> (a < m)%nat -> (b < m)%nat -> H_entry reals m h a b = mtw_H m h a b.
Proof.
  intros M Ha Hb. unfold H_entry, mtw_H. rewrite divs_val.
  assert (ST : stage reals m h m a b = if (a + 1 <? b)%nat then 0 else
     if (b =? 0)%nat && (a =? m - 1)%nat then 1 - h ^ m - h ^ m else if (b =? 0)%nat then 1 - h ^ (a + 1) else if (a =? m - 1)%nat then 1 - h ^ (m - b) else 1).
  { unfold stage. change (npow reals) with powerRZ. change (nint reals) with IZR.
    replace (Z.of_nat a + 1)%Z with (Z.of_nat (a + 1)) by lia. replace (Z.of_nat m - Z.of_nat b)%Z with (Z.of_nat (m - b)) by lia.
    rewrite <- !pow_powerRZ.
    destruct (Nat.ltb_spec a m); [|lia]. destruct (Nat.ltb_spec b m); [|lia]. rewrite !andb_true_r. unfold sub_if. change (nsub reals) with Rminus.
    destruct (Nat.ltb_spec (a + 1) b), (Nat.eqb_spec b 0), (Nat.eqb_spec a (m - 1)); cbn [andb]; try lia; try reflexivity.
    replace (m - b)%nat with m by lia. replace (a + 1)%nat with m by lia. reflexivity. }
  assert (CO : corner reals m h = Rmax 0 (2 * h - 1) ^ m).
  { unfold corner. change (npow reals) with powerRZ. change (nint reals) with IZR. change (nsub reals) with Rminus. change (nmul reals) with Rmult.
    change (ngt reals) with (fun x y : R => if Rlt_dec y x then true else false). cbn beta. rewrite <- pow_powerRZ.
    destruct (Rlt_dec 0 (2 * h - 1)).
    - rewrite Rmax_right by lra. reflexivity.
    - rewrite Rmax_left by lra. rewrite pow_i by exact M. reflexivity. }
  rewrite ST, CO. change (nadd reals) with Rplus. change (num reals) with R.
  destruct (Nat.ltb_spec (a + 1) b), (Nat.eqb_spec b 0), (Nat.eqb_spec a (m - 1)); cbn [andb]; try lia; try reflexivity.
  - unfold Rdiv. ring.
  - unfold Rdiv. ring.
Qed.

(** ** n!/n^n *)
Lemma factorials_real n (s : R) e : (1 <= n <= 15000000)%Z -> (0 <= e)%Z ->
  exists s' e', factorials reals n s e = Ok (s', e') /\
    s' * powerRZ 10 e' = s * powerRZ 10 e * (INR (fact (Z.to_nat n)) / INR (Z.to_nat n) ^ (Z.to_nat n)).
Proof.
  intros N E. unfold factorials. cbv zeta.
  match goal with |- context[for_ _ _ ?f ?z] =>
    destruct (for_inv (fun i se => (- 140 * (i - 1) <= snd se)%Z /\
       fst se * powerRZ 10 (snd se) = s * powerRZ 10 e * (INR (fact (Z.to_nat (i - 1))) / INR (Z.to_nat n) ^ (Z.to_nat (i - 1)))) f (Z.to_nat n) 1%Z z)
     as (se & EE & R1 & R2) end.
  - cbn [fst snd]. split; [lia|]. change (Z.to_nat (1 - 1)) with 0%nat. cbn. field.
  - intros i (s1, e1) I (H1 & H2). cbn [fst snd] in *. change (nmul reals) with Rmult. change (ndiv reals) with Rdiv. change (nint reals) with IZR. change (num reals) with R in *.
    change (ngt reals (em140 reals) (s1 * IZR i / IZR n)) with (if Rlt_dec (s1 * IZR i / IZR n) (em140 reals) then true else false).
    assert (Z' : forall e2 s2, s2 * powerRZ 10 e2 = s1 * IZR i / IZR n * powerRZ 10 e1 ->
      s2 * powerRZ 10 e2 = s * powerRZ 10 e * (INR (fact (Z.to_nat (i + 1 - 1))) / INR (Z.to_nat n) ^ Z.to_nat (i + 1 - 1))).
    { intros e2 s2 ->. replace (Z.to_nat (i + 1 - 1)) with (S (Z.to_nat (i - 1))) by lia. rewrite fact_simpl, mult_INR. cbn [pow].
      replace (IZR i) with (INR (S (Z.to_nat (i - 1)))) by (rewrite INR_IZR_INZ; f_equal; lia).
      replace (IZR n) with (INR (Z.to_nat n)) by (rewrite INR_IZR_INZ; f_equal; lia).
      assert (NZ : INR (Z.to_nat n) <> 0) by (apply not_0_INR; lia).
      replace (s1 * INR (S (Z.to_nat (i - 1))) / INR (Z.to_nat n) * powerRZ 10 e1) with
        (s1 * powerRZ 10 e1 * (INR (S (Z.to_nat (i - 1))) / INR (Z.to_nat n))) by (field; exact NZ).
      rewrite H2. field. split; [apply pow_nonzero, NZ|exact NZ]. }
    destruct (Rlt_dec _ _).
    + destruct (Z.ltb_spec (e1 - 140) (- 2 ^ 31)); [lia|]. eexists. split; [reflexivity|]. cbn [fst snd]. split; [lia|]. apply Z'.
      change (e140 reals) with (10 ^ 140). replace (e1 - 140)%Z with (e1 + -(140))%Z by lia. rewrite pow10_add.
      replace (powerRZ 10 (- (140))) with (/ 10 ^ 140) by reflexivity.
      assert (NZ : 10 ^ 140 <> 0) by (apply pow_nonzero; lra).
      assert (NN : IZR n <> 0) by (apply IZR_neq; lia). clear - NZ NN.
      generalize dependent (10 ^ 140). intros. field. split; assumption.
    + eexists. split; [reflexivity|]. cbn [fst snd]. split; [lia|]. now apply Z'.
  - exists (fst se), (snd se). split; [destruct se; exact EE|].
    replace (1 + Z.of_nat (Z.to_nat n) - 1)%Z with n in R2 by lia. exact R2.
Qed.
