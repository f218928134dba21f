(** C160: the lag of marsaglia_tsang_gorilla. *)
From Coq Require Import ZArith Reals Lra Lia List.
From Flocq Require Import Core IEEE754.BinarySingleNaN.
From Verif Require Import DoubleLemmas DoubleLemmas2 BaseLemmas PropRgb GorillaModel.
Import ListNotations.
Open Scope R_scope.

Lemma not_zero (x : double) : is_finite x = true -> B2R x <> 0 -> deq x dzero = false.
Proof.
  intros F H. destruct (deq x dzero) eqn:E; [|reflexivity]. exfalso. apply H. destruct x as [s|s| |s m e]; try discriminate F; [reflexivity|].
  destruct s; discriminate E.
Qed.
Lemma lag_some (x : double) : is_finite x = true -> B2R x <> 0 -> (0 <= Ztrunc (B2R x) < 2 ^ 32)%Z -> gorilla_lag x = Ok (Z.to_N (Ztrunc (B2R x))).
Proof.
  intros F H R. unfold gorilla_lag. rewrite (not_zero x F H), (dtrunc_val x F).
  destruct (Z.leb_spec 0 (Ztrunc (B2R x))); [|lia]. destruct (Z.ltb_spec (Ztrunc (B2R x)) (2 ^ 32)); [reflexivity|lia].
Qed.

Section Gorilla.
Variable A : arith.
Variable P : KsModel.num A -> KsModel.num A -> KsModel.num A.
(** the p-value of a list of deviates: their sum against the normal law of mean n/2 and
    variance n/12 *)
Definition sum_pvalue (l : list (KsModel.num A)) : KsModel.num A :=
  Xtest_eval A P {| xt_x := fold_left (nadd A) l (nint A 0);
                    xt_y := nmul A (nint A (Z.of_nat (length l))) (nlit A 5 10);
                    xt_sigma := nsqrt A (ndiv A (nint A (Z.of_nat (length l))) (nint A 12)) |}.
(** every [k]-th of the numbers drawn after number [c] *)
Definition every (u : nat -> KsModel.num A) (k c n : nat) : list (KsModel.num A) := map (fun t => u (c + k * S t - 1)%nat) (seq 0 n).

Lemma gorilla_every u x n c lag : gorilla_lag x = Ok lag -> (lag < 2 ^ 32)%N ->
  let k := N.to_nat (if (lag =? 0)%N then 2 ^ 32 else lag) in
  marsaglia_tsang_gorilla A P u x n c = Ok (sum_pvalue (every u k c n), (c + k * n)%nat).
Proof.
  intros E L k. unfold marsaglia_tsang_gorilla. rewrite E. cbn [bind].
  assert (K : (N.to_nat (sub32 lag 1) + 1 = k)%nat).
  { unfold k. destruct (N.eqb_spec lag 0) as [->|Ne].
    - change (sub32 0 1) with (2 ^ 32 - 1)%N. generalize (eq_refl (2 ^ 32)%N). generalize (2 ^ 32)%N at 1 3. intros b Hb.
      assert (1 <= b)%N by (rewrite Hb; lia). lia.
    - rewrite sub32_small by lia. lia. }
  unfold lagged_xtest. rewrite C72_lagged. cbn [fst snd]. rewrite K.
  assert (V : map (fun t => u (c + k * t + N.to_nat (sub32 lag 1))%nat) (seq 0 n) = every u k c n).
  { apply map_ext. intro t. f_equal. nia. }
  rewrite V. unfold sum_pvalue. replace (length (every u k c n)) with n by (unfold every; now rewrite map_length, seq_length). reflexivity.
Qed.

(** -x with an integer part of at least 1: every lag-th number is added. *)
Theorem C160_lag : forall u x n c, is_finite x = true -> 1 <= B2R x < 2 ^ 32 ->
  let k := Z.to_nat (Ztrunc (B2R x)) in
  marsaglia_tsang_gorilla A P u x n c = Ok (sum_pvalue (every u k c n), (c + k * n)%nat).
Proof.
  intros u x n c F R k.
  assert (Z : (1 <= Ztrunc (B2R x) < 2 ^ 32)%Z).
  { rewrite Ztrunc_floor by lra. split; [apply Zfloor_lub; cbn; lra|]. apply lt_IZR. eapply Rle_lt_trans; [apply Zfloor_lb|].
    rewrite (IZR_Zpower radix2) by lia. cbn. lra. }
  assert (L : gorilla_lag x = Ok (Z.to_N (Ztrunc (B2R x)))) by (apply lag_some; [exact F|lra|lia]).
  rewrite (gorilla_every u x n c _ L) by lia. destruct (N.eqb_spec (Z.to_N (Ztrunc (B2R x))) 0); [lia|].
  unfold k. rewrite Z_N_nat. reflexivity.
Qed.
(** Without -x: every second. *)
Theorem C160_default : forall u x n c, is_finite x = true -> B2R x = 0 ->
  marsaglia_tsang_gorilla A P u x n c = Ok (sum_pvalue (every u 2 c n), (c + 2 * n)%nat).
Proof.
  intros u x n c F R. apply (gorilla_every u x n c 2); [|lia]. unfold gorilla_lag.
  replace (deq x dzero) with true; [reflexivity|]. destruct x as [s|s| |s m e B]; try discriminate F; [destruct s; reflexivity|].
  exfalso. unfold B2R in R. rewrite F2R_cond_Zopp in R. pose proof (F2R_gt_0 radix2 (Float radix2 (Z.pos m) e) eq_refl).
  destruct s; cbn [cond_Ropp] in R; lra.
Qed.
(** Refuted: between -1 and 1, 0 excepted, the lag wraps: each of the samples
    takes 2^32 numbers. *)
Theorem C160_fraction_refuted : forall u x n c, is_finite x = true -> -1 < B2R x < 1 -> B2R x <> 0 ->
  marsaglia_tsang_gorilla A P u x n c = Ok (sum_pvalue (every u (N.to_nat (2 ^ 32)) c n), (c + N.to_nat (2 ^ 32) * n)%nat).
Proof.
  intros u x n c F R Z0.
  assert (Z : Ztrunc (B2R x) = 0%Z).
  { destruct (Rle_dec 0 (B2R x)).
    - rewrite Ztrunc_floor by lra. apply Zfloor_imp. cbn. lra.
    - rewrite Ztrunc_ceil by lra. apply Zceil_imp. cbn. lra. }
  assert (L : gorilla_lag x = Ok 0%N) by (rewrite lag_some by (rewrite ?Z; try lia; auto); rewrite Z; reflexivity).
  rewrite (gorilla_every u x n c _ L) by lia. reflexivity.
Qed.
(** Refuted: for all other values the conversion is undefined. *)
Theorem C160_range_refuted : forall u x n c, is_finite x = true -> B2R x <= -1 \/ 2 ^ 32 <= B2R x ->
  exists msg, marsaglia_tsang_gorilla A P u x n c = UB msg.
Proof.
  intros u x n c F R. unfold marsaglia_tsang_gorilla, gorilla_lag. rewrite (not_zero x F) by (destruct R; lra). rewrite (dtrunc_val x F).
  assert (Z : (Ztrunc (B2R x) <= -1 \/ 2 ^ 32 <= Ztrunc (B2R x))%Z).
  { destruct R as [R|R].
    - left. rewrite Ztrunc_ceil by lra. apply Zceil_glb. cbn. lra.
    - right. rewrite Ztrunc_floor by lra. apply Zfloor_lub. rewrite (IZR_Zpower radix2) by lia. cbn. lra. }
  destruct (Z.leb_spec 0 (Ztrunc (B2R x))); [|eexists; reflexivity]. destruct (Z.ltb_spec (Ztrunc (B2R x)) (2 ^ 32)); [lia|]. eexists. reflexivity.
Qed.
(** ... and so it is for infinities and NaN. *)
Theorem C160_nonfinite_refuted : forall u x n c, is_finite x = false -> exists msg, marsaglia_tsang_gorilla A P u x n c = UB msg.
Proof.
  intros u x n c F. unfold marsaglia_tsang_gorilla, gorilla_lag. destruct x as [s|s| |s m e B]; try discriminate F; [destruct s|]; eexists; reflexivity.
Qed.
End Gorilla.

Example C160_ex : is_finite (d_of_Z 3) = true /\ is_finite (ddiv (d_of_Z 3) dzero) = false /\ gorilla_lag (ddiv (d_of_Z 3) dzero) = UB "conversion to unsigned int" /\ gorilla_lag (d_of_Z 3) = Ok 3%N /\ gorilla_lag dhalf = Ok 0%N /\
  gorilla_lag (d_of_Z (-4)) = UB "conversion to unsigned int" /\
  match marsaglia_tsang_gorilla (doubles (fun x _ => x) (fun x => x)) (fun x _ => x) (fun i => d_of_Z (Z.of_nat i)) (d_of_Z 3) 2 0 with
  | Ok (_, c) => c = 6%nat | _ => False end.
Proof. vm_compute. repeat split. Qed.

Print Assumptions C160_lag.
Print Assumptions C160_default.
Print Assumptions C160_fraction_refuted.
Print Assumptions C160_range_refuted.
Print Assumptions C160_nonfinite_refuted.
