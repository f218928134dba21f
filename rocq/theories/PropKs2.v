(** C98: read with real numbers, the Kolmogorov-Smirnov test evaluates the
    formula of Marsaglia, Tsang and Wang. *)
From Coq Require Import ZArith Reals Lra Lia List Permutation Sorted Bool.
From Flocq Require Import Core.
From Verif Require Import KsModel KsSpec KsLemmas KsLemmas2 KsLemmas3 KsLemmas4 KsReals BaseLemmas.
Import ListNotations.
Open Scope R_scope.

Lemma gt_real (x y : R) : ngt reals x y = if Rlt_dec y x then true else false.
Proof. reflexivity. Qed.

(** The quick approximation is used only without -k 2 and for large d^2 n. *)
Definition long_way (ks_test : N) (n : Z) (d : R) : Prop :=
  ks_test = 2%N \/ d * d * IZR n <= 724 / 100 /\ ((n <= 99)%Z \/ d * d * IZR n <= 376 / 100).

Theorem C98_exact : forall ks_test n d, (1 <= n <= 15000000)%Z -> 0 <= d <= 1 -> long_way ks_test n d ->
  let f := Zfloor (IZR n * d) in ((2 * f + 1) * (2 * f + 1) < 2 ^ 31)%Z ->
  p_ks_new reals ks_test n d = Ok (1 - mtw (Z.to_nat n) (Z.to_nat (f + 1)) (IZR (f + 1) - IZR n * d)).
Proof.
  intros ks n d N D W f F. unfold p_ks_new. cbv zeta.
  change (nmul reals) with Rmult. change (nsub reals) with Rminus. change (nint reals) with IZR.
  assert (C : (negb (ks =? 2)%N && (ngt reals (d * d * IZR n) (nlit reals 724 100) || ngt reals (d * d * IZR n) (nlit reals 376 100) && (n >? 99)%Z)) = false).
  { change (nlit reals 724 100) with (724 / 100). change (nlit reals 376 100) with (376 / 100). rewrite !gt_real.
    destruct W as [->|(W1 & W2)]; [reflexivity|]. destruct (Rlt_dec (724 / 100) (d * d * IZR n)); [lra|]. cbn [orb].
    destruct W2 as [W2|W2].
    - destruct (Z.gtb_spec n 99); [lia|]. now rewrite !andb_false_r.
    - destruct (Rlt_dec (376 / 100) (d * d * IZR n)); [lra|]. now rewrite andb_false_r. }
  rewrite C. clear C.
  assert (ND : 0 <= IZR n * d). { apply Rmult_le_pos; [apply IZR_le; lia|lra]. }
  change (ntrunc reals (IZR n * d)) with (Some (Ztrunc (IZR n * d))). rewrite Ztrunc_floor by exact ND. fold f.
  assert (F0 : (0 <= f)%Z) by (unfold f; apply Zfloor_lub; exact ND).
  assert (F1 : (f < 2 ^ 30)%Z) by nia.
  change (2 ^ 31)%Z with 2147483648%Z in *. change (2 ^ 30)%Z with 1073741824%Z in *.
  destruct (Z.ltb_spec f (Z.opp 2147483648)); [lia|]. destruct (Z.ltb_spec (2147483648 - 1) (f + 1)); [lia|]. cbn [orb].
  replace (2 * (f + 1) - 1)%Z with (2 * f + 1)%Z by lia.
  destruct (Z.ltb_spec (2 * f + 1) 1); [lia|]. destruct (Z.leb_spec 2147483648 ((2 * f + 1) * (2 * f + 1))); [lia|]. cbn [orb].
  set (h := IZR (f + 1) - IZR n * d). set (m := Z.to_nat (2 * f + 1)). assert (M : (0 < m)%nat) by lia.
  destruct (fill_H_ok reals m h M) as (Hm & -> & LH & EH). cbn [bind].
  change (num reals) with R. destruct (mPower_real m Hm (repeat (IZR 0) (m * m)) n LH (repeat_length _ _)) as (Q & e & -> & LQ & E0 & _ & EQ); [lia|]. cbn [bind].
  replace ((f + 1 - 1) * Z.of_nat m + (f + 1) - 1)%Z with (Z.of_nat (Z.to_nat f * m + Z.to_nat f)) by lia.
  assert (FM : (Z.to_nat f < m)%nat) by lia.
  change (num reals) with R in LQ, EQ, Q. rewrite (get_nat (0 : R)) by (rewrite LQ; nia). cbn [bind].
  destruct (factorials_real n (nth (Z.to_nat f * m + Z.to_nat f) Q 0) e N E0) as (s' & e' & -> & V). cbn [bind].
  f_equal. change (IZR 1) with 1. f_equal. change (npow reals (nlit reals 10 1) e') with (powerRZ (10 / 1) e').
  replace (10 / 1) with 10 by field. rewrite V. rewrite EQ by assumption.
  unfold mtw. replace (2 * Z.to_nat (f + 1) - 1)%nat with m by lia. replace (Z.to_nat (f + 1) - 1)%nat with (Z.to_nat f) by lia.
  rewrite Rmult_comm. f_equal.
  assert (ME : forall k, meq m (mpower m (fun i j => nth (i * m + j) Hm 0) k) (mpower m (mtw_H m h) k)).
  { induction k as [|k IH]; cbn [mpower]; [intros ? ?; reflexivity|]. apply mmul_ext; [|exact IH].
    intros i j I J. rewrite <- H_real by assumption. now apply EH. }
  now apply ME.
Qed.

(** With the default setting (-k 0) and 2 to 4999 p-values whose largest offset
    from i/(n+1) is d, the verdict is one minus the distribution at d. *)
Definition sorts_reals (srt : list R -> list R) : Prop := forall l, Permutation l (srt l) /\ StronglySorted Rle (srt l).
Lemma dmax_real : forall pv i count m, dmax_loop reals i count pv m = largest_from (IZR i) (IZR count) pv m.
Proof.
  induction pv as [|p pv IH]; intros i count m; [reflexivity|]. cbn [dmax_loop largest_from].
  change (nabs reals) with Rabs. change (nsub reals) with Rminus. change (ndiv reals) with Rdiv. change (nadd reals) with Rplus.
  change (nint reals) with IZR. rewrite IH, plus_IZR. f_equal. rewrite gt_real.
  destruct (Rlt_dec m (Rabs (p - IZR i / (IZR count + 1)))); [rewrite Rmax_right|rewrite Rmax_left]; try lra; reflexivity.
Qed.
Theorem C98_verdict : forall srt ks_test (pv : list R) d, sorts_reals srt -> (2 <= Z.of_nat (length pv) <= 4999)%Z ->
  Forall (fun p => 0 <= p <= 1) pv -> largest_offset pv d -> long_way ks_test (Z.of_nat (length pv)) d ->
  let n := length pv in let f := Zfloor (INR n * d) in
  verdict (kstest reals srt ks_test pv (Z.of_nat n)) = Ok (1 - mtw n (Z.to_nat (f + 1)) (IZR (f + 1) - INR n * d)).
Proof.
  intros srt ks pv d S L F (s & Ps & Ss & Ed) W n f. destruct (S pv) as (P1 & S1).
  assert (E : srt pv = s). { apply sorted_unique; auto. transitivity pv; [symmetry; exact P1|exact Ps]. }
  unfold kstest. fold n in L. destruct (Z.ltb_spec (Z.of_nat n) 1); [lia|]. destruct (Z.eqb_spec (Z.of_nat n) 1); [lia|].
  change (num reals) with R. fold n. rewrite Z.ltb_irrefl, Nat2Z.id. replace (firstn n pv) with pv by (symmetry; apply firstn_all).
  cbv zeta. rewrite dmax_real. destruct (Z.gtb_spec (Z.of_nat n) 4999); [lia|]. rewrite andb_false_r.
  change (nint reals 0) with 0. rewrite <- INR_IZR_INZ, E. change (IZR 1) with 1. fold n in Ed. rewrite <- Ed.
  assert (R : 0 <= d <= 1).
  { rewrite Ed. split; [apply largest_ge|]. apply largest_lub; [lra|]. intros k K.
    assert (B : 0 <= nth k s 0 <= 1). { assert (Forall (fun p => 0 <= p <= 1) s) as Fs by (eapply Permutation_Forall; eauto).
      rewrite Forall_forall in Fs. apply Fs, nth_In, K. }
    assert (KN : 0 <= INR k /\ INR k + 1 <= INR n).
    { split; [apply pos_INR|]. rewrite <- S_INR. apply le_INR. apply Permutation_length in Ps. unfold n. lia. }
    assert (0 <= (1 + INR k) / (INR n + 1) <= 1).
    { split; [apply Rlt_le, Rdiv_lt_0_compat; lra|]. apply Rmult_le_reg_r with (INR n + 1); [lra|]. field_simplify; lra. }
    apply Rabs_le. lra. }
  pose proof (C98_exact ks (Z.of_nat n) d) as EX. rewrite <- INR_IZR_INZ in EX. rewrite EX; auto; [|lia|].
  - cbn [bind verdict]. now rewrite Nat2Z.id.
  - fold f. assert (f <= Z.of_nat n)%Z.
    { apply le_IZR. rewrite <- INR_IZR_INZ. apply Rle_trans with (INR n * d); [apply Zfloor_lb|]. pose proof (pos_INR n). nra. }
    assert (0 <= f)%Z by (apply Zfloor_lub; apply Rmult_le_pos; [apply pos_INR|lra]). nia.
Qed.

(** Two p-values 1/3 and 2/3 give d = 0, k = 1, h = 1 and a zero matrix: the verdict is 1. *)
Example C98_ex : p_ks_new reals 0 2 0 = Ok (1 - mtw 2 1 1) /\ mtw 2 1 1 = 0.
Proof.
  split.
  - assert (Z0 : Zfloor (IZR 2 * 0) = 0%Z) by (rewrite Rmult_0_r; apply (Zfloor_IZR 0)).
    rewrite (C98_exact 0 2 0); try lra; try lia; rewrite ?Z0; try reflexivity.
    + do 2 f_equal. change (Z.to_nat 2) with 2%nat. change (Z.to_nat (0 + 1)) with 1%nat. f_equal. change (0 + 1)%Z with 1%Z. lra.
    + right. split; [lra|left; lia].
  - unfold mtw. cbn [Nat.mul Nat.add Nat.sub mpower mmul rsum mtw_H mone Nat.eqb Nat.ltb Nat.leb andb fact INR pow].
    rewrite Rmax_right by lra. field.
Qed.
(** For n = 1 the distribution of the distance is 2d - 1 between 1/2 and 1. *)
Example C98_one : forall d, / 2 <= d < 1 -> mtw 1 1 (1 - d) = 2 * d - 1.
Proof.
  intros d D. unfold mtw. cbn [Nat.mul Nat.add Nat.sub mpower mmul rsum mtw_H mone Nat.eqb Nat.ltb Nat.leb andb fact INR pow].
  rewrite Rmax_left by lra. field.
Qed.
Print Assumptions C98_exact.
Print Assumptions C98_verdict.
