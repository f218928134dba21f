(** Expected counts computed as a count times a decimal literal. *)
From Coq Require Import Reals Lia Lra.
From Flocq Require Import Core IEEE754.BinarySingleNaN.
From Verif Require Import DoubleModel DoubleLemmas DoubleLemmas2 SphereLemmas ChisqDoubles.
Open Scope R_scope.

Lemma expected_within n p q : (0 <= n < 2 ^ 32)%Z -> (0 < p <= q)%Z -> (q <= 2 ^ 53)%Z ->
  let e := dmul (d_of_Z n) (d_lit p q) in
  is_finite e = true /\ within 2 (IZR n * (IZR p / IZR q)) (B2R e).
Proof.
  intros N P Q e. destruct (d_of_Z_val n) as (Fn & Vn & _); [lia|].
  destruct (d_of_Z_val p) as (Fp & Vp & _); [lia|]. destruct (d_of_Z_val q) as (Fq & Vq & _); [lia|].
  assert (P1 : 1 <= IZR p) by (apply IZR_le; lia). assert (PQ : IZR p <= IZR q) by (apply IZR_le; lia).
  assert (Q1 : IZR q <= IZR (2 ^ 53)) by (apply IZR_le; lia). assert (N1 : 0 <= IZR n <= IZR (2 ^ 32)) by (split; apply IZR_le; lia).
  change (2 ^ 53)%Z with 9007199254740992%Z in Q1. change (2 ^ 32)%Z with 4294967296%Z in N1.
  assert (R1 : IZR p / IZR q <= 1) by (apply Rmult_le_reg_r with (IZR q); [lra|]; unfold Rdiv; rewrite Rmult_assoc, Rinv_l by lra; lra).
  assert (R0 : bpow radix2 (-53) <= IZR p / IZR q).
  { change (bpow radix2 (-53)) with (/ 9007199254740992). apply Rle_trans with (/ IZR q); [apply Rinv_le; lra|].
    unfold Rdiv. rewrite <- (Rmult_1_l (/ IZR q)) at 1. apply Rmult_le_compat_r; [|lra]. apply Rlt_le, Rinv_0_lt_compat. lra. }
  set (r := IZR p / IZR q) in *. pose proof (bpow_gt_0 radix2 (-53)) as B53.
  assert (B900 : IZR (2 ^ 34) <= bpow radix2 900) by (rewrite (IZR_Zpower radix2) by lia; apply bpow_le; lia).
  change (2 ^ 34)%Z with 17179869184%Z in B900.
  destruct (ddiv_tame (d_of_Z p) (d_of_Z q) Fp) as (Fl & Vl); [rewrite Vq; lra| |].
  { rewrite Vp, Vq. fold r. rewrite Rabs_pos_eq by lra. lra. }
  rewrite Vp, Vq in Vl. fold r in Vl. fold (d_lit p q) in Fl, Vl.
  assert (Nr : nice r) by (right; apply Rle_trans with (2 := R0), bpow_le; lia).
  assert (W1 : within 1 r (B2R (d_lit p q))).
  { rewrite Vl. apply within_rnd; [lra|exact Nr|]. unfold within. cbn. lra. }
  assert (Ll : bpow radix2 (-53) <= B2R (d_lit p q) <= 1).
  { rewrite Vl. split.
    - apply Rle_trans with (rnd (bpow radix2 (-53))); [rewrite rnd_bpow by lia; lra|now apply rnd_le].
    - apply Rle_trans with (rnd 1); [now apply rnd_le|]. change 1 with (bpow radix2 0). rewrite rnd_bpow by lia. lra. }
  destruct (dmul_tame (d_of_Z n) (d_lit p q) Fn Fl) as (Fe & Ve).
  { rewrite Vn, Rabs_pos_eq by nra. nra. }
  split; [exact Fe|]. unfold e. rewrite Ve, Vn. apply within_rnd.
  - nra.
  - destruct (Z.eq_dec n 0) as [->|Nz]; [left; ring|right]. assert (1 <= IZR n) by (apply IZR_le; lia).
    apply Rle_trans with (bpow radix2 (-53)); [apply bpow_le; lia|]. nra.
  - rewrite !(Rmult_comm (IZR n)). apply within_scale; [lra|exact W1].
Qed.
(** within 3/10^16 of the exact product, per sample *)
Lemma expected_close n p q : (0 <= n < 2 ^ 32)%Z -> (0 < p <= q)%Z -> (q <= 2 ^ 53)%Z ->
  let e := dmul (d_of_Z n) (d_lit p q) in
  is_finite e = true /\ Rabs (B2R e - IZR n * (IZR p / IZR q)) <= IZR n * (IZR p / IZR q) * (3 / 10000000000000000).
Proof.
  intros N P Q e. destruct (expected_within n p q N P Q) as (F & L & H). split; [exact F|]. fold e in L, H.
  assert (X : 0 <= IZR n * (IZR p / IZR q)).
  { apply Rmult_le_pos; [apply IZR_le; lia|]. apply Rmult_le_pos; [apply IZR_le; lia|]. apply Rlt_le, Rinv_0_lt_compat, IZR_lt. lia. }
  set (x := IZR n * (IZR p / IZR q)) in *. clearbody x. cbn [pow] in L, H. unfold u53 in L, H. apply Rabs_le. nra.
Qed.
