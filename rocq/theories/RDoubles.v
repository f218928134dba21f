(** The numbers the generators from GNU R compute from their words. *)
From Coq Require Import NArith ZArith List Bool Reals Lra Lia.
From Flocq Require Import Core IEEE754.BinarySingleNaN.
From Verif Require Import RModel DoubleLemmas DoubleLemmas2 DoubleLemmas3.
Import ListNotations.
Open Scope R_scope.

Definition below1 : double := @B754_finite 53 1024 false 9007199254740991 (-53) eq_refl.
Definition tiny : double := @B754_finite 53 1024 false 4503599628419071 (-85) eq_refl.
Lemma below1_val : B2R below1 = 1 - / 9007199254740992.
Proof.
  change (B2R below1) with (IZR 9007199254740991 * bpow radix2 (-53)).
  change (bpow radix2 (-53)) with (/ 9007199254740992). lra.
Qed.
Lemma one_val : B2R DoubleModel.done = 1.
Proof. rewrite <- val_one. reflexivity. Qed.
Lemma c_val : B2R i2_32m1 = 4503599628419071 * / 19342813113834066795298816.
Proof. reflexivity. Qed.
Lemma kt_val : B2R KT = 4503599627370498 * / 4835703278458516698824704.
Proof. reflexivity. Qed.
Lemma mtf_val : B2R MTF = / 4294967296.
Proof.
  change (B2R MTF) with (4503599627370496 * / 19342813113834066795298816). lra.
Qed.
Lemma tiny_val : B2R tiny = 4503599628419071 * / 38685626227668133590597632.
Proof. reflexivity. Qed.
Lemma half_c : is_finite (dmul dhalf i2_32m1) = true /\ B2R (dmul dhalf i2_32m1) = B2R tiny.
Proof.
  destruct (dmul_val dhalf i2_32m1 eq_refl eq_refl) as (F & V).
  - rewrite dhalf_fin, c_val. apply moderate_le. lra.
  - split; [exact F|]. rewrite V. rewrite <- (rnd_double tiny). f_equal. rewrite dhalf_fin, c_val, tiny_val. lra.
Qed.
Lemma below_1 (x : double) : is_finite x = true -> B2R x < 1 -> B2R x <= 1 - / 9007199254740992.
Proof.
  intros F H. rewrite <- below1_val. destruct (neighbour below1 x eq_refl eq_refl F) as [L|L]; [exact L|exfalso].
  assert (E : B2R (Bsucc below1) = 1).
  { pose proof (Bsucc_correct 53 1024 prec_ok emax_ok below1 eq_refl) as S. 
    assert (V : val (Bsucc below1) = val DoubleModel.done).
    { apply deq_val; reflexivity. }
    rewrite val_one in V. rewrite val_finite in V by reflexivity. exact V. }
  lra.
Qed.
Lemma fixup_id (x : double) : is_finite x = true -> 0 < B2R x < 1 -> fixup x = x.
Proof.
  intros F H. pose proof (below_1 x F ltac:(lra)) as B. unfold fixup.
  destruct (dle x dzero) eqn:D1.
  { apply dle_val in D1; [|apply finite_nan, F|reflexivity]. rewrite val_zero, val_finite in D1 by exact F. lra. }
  destruct (dsub_mod DoubleModel.done x eq_refl F) as (F' & V'); [rewrite one_val; apply moderate_le; lra|].
  destruct (dle (dsub _ x) dzero) eqn:D2; [|reflexivity].
  apply dle_val in D2; [|apply finite_nan, F'|reflexivity]. rewrite val_zero, val_finite in D2 by exact F'.
  rewrite V', one_val in D2. exfalso.
  assert (bpow radix2 (-53) <= rnd (1 - B2R x)).
  { replace (bpow radix2 (-53)) with (rnd (bpow radix2 (-53))).
    - apply rnd_le. change (bpow radix2 (-53)) with (/ 9007199254740992). lra.
    - unfold rnd. apply round_generic; auto with typeclass_instances. apply generic_format_bpow. unfold SpecFloat.fexp. cbn. lia. }
  pose proof (bpow_gt_0 radix2 (-53)). lra.
Qed.
(** The result is strictly between zero and one. *)
Lemma fixup_ok (x : double) : is_finite x = true -> -8 <= B2R x <= 8 -> is_finite (fixup x) = true /\ 0 < B2R (fixup x) < 1.
Proof.
  intros F H. destruct half_c as (Fc & Vc). rewrite tiny_val in Vc. unfold fixup.
  destruct (dle x dzero) eqn:D1.
  - split; [exact Fc|]. rewrite Vc. lra.
  - assert (P : 0 < B2R x).
    { destruct (Rlt_or_le 0 (B2R x)) as [C|C]; [exact C|]. exfalso. enough (dle x dzero = true) by congruence.
      apply dle_val; [apply finite_nan, F|reflexivity|]. rewrite val_zero, val_finite by exact F. exact C. }
    destruct (dsub_mod DoubleModel.done x eq_refl F) as (F' & V'); [rewrite one_val; apply moderate_le; lra|].
    rewrite one_val in V'. destruct (dle (dsub _ x) dzero) eqn:D2.
    + destruct (dsub_mod DoubleModel.done (dmul dhalf i2_32m1) eq_refl Fc) as (F2 & V2).
      { rewrite one_val, Vc. apply moderate_le. lra. }
      split; [exact F2|]. rewrite V2, one_val, Vc. split.
      * apply Rlt_le_trans with (rnd (/ 2)); [rewrite rnd_half; lra|]. apply rnd_le. lra.
      * apply Rle_lt_trans with (rnd (B2R below1)); [|rewrite rnd_double, below1_val; lra]. apply rnd_le. rewrite below1_val. lra.
    + split; [exact F|]. split; [exact P|]. destruct (Rlt_or_le (B2R x) 1) as [C|C]; [exact C|]. exfalso.
      enough (dle (dsub DoubleModel.done x) dzero = true) by congruence.
      apply dle_val; [apply finite_nan, F'|reflexivity|]. rewrite val_zero, val_finite by exact F'. rewrite V', <- rnd_zero. apply rnd_le. lra.
Qed.

(** ** The numbers are strictly between zero and one *)
Definition r_in_range (k : rkind) (w : list N) : Prop :=
  match k with
  | WICHMANN_HILL => exists a b c, w = [a; b; c] /\ (a < 30269 /\ b < 30307 /\ c < 30323)%N
  | KNUTH_TAOCP | KNUTH_TAOCP2 => exists a, w = [a] /\ (a < 2 ^ 30)%N
  | _ => exists a, w = [a] /\ (a < 2 ^ 32)%N
  end.
Lemma word_val z : (z < 2 ^ 32)%N -> is_finite (d_of_Z (Z.of_N z)) = true /\ B2R (d_of_Z (Z.of_N z)) = IZR (Z.of_N z) /\
  0 <= IZR (Z.of_N z) <= 4294967295.
Proof.
  intro H. destruct (d_of_Z_val (Z.of_N z)) as (F & V & _); [lia|]. split; [exact F|]. split; [exact V|].
  split; [apply (IZR_le 0)|apply (IZR_le _ 4294967295)]; lia.
Qed.
Lemma quotient z m : (z < m)%N -> (m < 2 ^ 32)%N -> is_finite (ddiv (d_of_Z (Z.of_N z)) (d_of_Z (Z.of_N m))) = true /\
  0 <= B2R (ddiv (d_of_Z (Z.of_N z)) (d_of_Z (Z.of_N m))) <= 1.
Proof.
  intros H M. destruct (word_val z) as (F & V & R); [lia|]. destruct (word_val m) as (F' & V' & R'); [lia|].
  assert (L : IZR (Z.of_N z) + 1 <= IZR (Z.of_N m)) by (rewrite <- (plus_IZR _ 1); apply IZR_le; lia).
  assert (Q : 0 <= IZR (Z.of_N z) / IZR (Z.of_N m) <= 1).
  { split; [apply Rmult_le_pos; [lra|apply Rlt_le, Rinv_0_lt_compat; lra]|].
    apply Rmult_le_reg_r with (IZR (Z.of_N m)); [lra|]. unfold Rdiv. rewrite Rmult_assoc, Rinv_l by lra. lra. }
  destruct (ddiv_mod (d_of_Z (Z.of_N z)) (d_of_Z (Z.of_N m)) F) as (Fq & Vq).
  - rewrite V'. lra.
  - rewrite V, V'. apply moderate_le. lra.
  - split; [exact Fq|]. rewrite Vq, V, V'. split.
    + rewrite <- rnd_zero at 1. apply rnd_le. lra.
    + rewrite <- (rnd_int 1) by lia. apply rnd_le. lra.
Qed.
Lemma unif_ok k w : r_in_range k w -> exists u, r_unif k w = Ok u /\ is_finite u = true /\ 0 < B2R u < 1.
Proof.
  assert (One : forall a (f : double) m, B2R f = m -> is_finite f = true -> 0 <= m <= / 4294967295 \/ (0 <= m <= / 1073741823 /\ (a < 2 ^ 30)%N) -> (a < 2 ^ 32)%N ->
    is_finite (dmul (d_of_Z (Z.of_N a)) f) = true /\ -8 <= B2R (dmul (d_of_Z (Z.of_N a)) f) <= 8).
  { intros a f m Vf Ff Hm Ha. destruct (word_val a Ha) as (F & V & R).
    assert (Q : 0 <= IZR (Z.of_N a) * m <= 1).
    { destruct Hm as [Hm|[Hm Ha']].
      - split; [apply Rmult_le_pos; lra|]. apply Rle_trans with (4294967295 * / 4294967295); [apply Rmult_le_compat; lra|lra].
      - assert (IZR (Z.of_N a) <= 1073741823) by (apply (IZR_le _ 1073741823); lia).
        split; [apply Rmult_le_pos; lra|]. apply Rle_trans with (1073741823 * / 1073741823); [apply Rmult_le_compat; lra|lra]. }
    destruct (dmul_val (d_of_Z (Z.of_N a)) f F Ff) as (F' & V').
    - rewrite V, Vf. apply moderate_le. lra.
    - split; [exact F'|]. rewrite V', V, Vf. split.
      + apply Rle_trans with (rnd 0); [rewrite rnd_zero; lra|]. apply rnd_le. lra.
      + apply Rle_trans with (rnd 1); [apply rnd_le; lra|]. rewrite (rnd_int 1) by lia. lra. }
  assert (Fin : forall x : double, is_finite x = true /\ -8 <= B2R x <= 8 -> exists u, @Ok double (fixup x) = Ok u /\ is_finite u = true /\ 0 < B2R u < 1).
  { intros x [F H]. exists (fixup x). split; [reflexivity|]. apply fixup_ok; auto. }
  destruct k; cbn [r_in_range]; [intros (a & b & c & -> & Ha & Hb & Hc)|intros (a & -> & Ha)..]; unfold r_unif; cbn [nth].
  - change (d_of_Z 30269) with (d_of_Z (Z.of_N 30269)). change (d_of_Z 30307) with (d_of_Z (Z.of_N 30307)). change (d_of_Z 30323) with (d_of_Z (Z.of_N 30323)).
    destruct (quotient a 30269 Ha eq_refl) as (Fa & Va). destruct (quotient b 30307 Hb eq_refl) as (Fb & Vb). destruct (quotient c 30323 Hc eq_refl) as (Fc & Vc).
    generalize dependent (ddiv (d_of_Z (Z.of_N a)) (d_of_Z (Z.of_N 30269))). intros qa Fa Va.
    generalize dependent (ddiv (d_of_Z (Z.of_N b)) (d_of_Z (Z.of_N 30307))). intros qb Fb Vb.
    generalize dependent (ddiv (d_of_Z (Z.of_N c)) (d_of_Z (Z.of_N 30323))). intros qc Fc Vc.
    destruct (dadd_val qa qb Fa Fb) as (F1 & V1); [apply moderate_le; lra|].
    assert (R1 : 0 <= B2R (dadd qa qb) <= 2).
    { rewrite V1. split; [rewrite <- rnd_zero at 1|rewrite <- (rnd_int 2) by lia]; apply rnd_le; lra. }
    destruct (dadd_val (dadd qa qb) qc F1 Fc) as (F2 & V2); [apply moderate_le; lra|].
    assert (R2 : 0 <= B2R (dadd (dadd qa qb) qc) <= 3).
    { rewrite V2. split; [rewrite <- rnd_zero at 1|rewrite <- (rnd_int 3) by lia]; apply rnd_le; lra. }
    generalize dependent (dadd (dadd qa qb) qc). intros s F2 _ R2. rewrite dtrunc_val by exact F2.
    rewrite Ztrunc_floor by lra.
    assert (Z0 : (0 <= Zfloor (B2R s))%Z) by (apply Zfloor_lub; lra).
    assert (Z3 : (Zfloor (B2R s) <= 3)%Z) by (rewrite <- (Zfloor_IZR 3); apply Zfloor_le; lra).
    generalize dependent (Zfloor (B2R s)). intros z Z0 Z3.
    replace ((- 2 ^ 31 <=? z)%Z && (z <? 2 ^ 31)%Z) with true by (symmetry; apply andb_true_intro; split; [apply Z.leb_le|apply Z.ltb_lt]; lia).
    apply Fin. destruct (d_of_Z_val z) as (Fz & Vz & _); [lia|].
    assert (0 <= IZR z <= 3) by (split; [apply (IZR_le 0)|apply (IZR_le _ 3)]; lia).
    destruct (dsub_mod s (d_of_Z z) F2 Fz) as (F3 & V3); [rewrite Vz; apply moderate_le; lra|].
    split; [exact F3|]. rewrite V3, Vz. split; [rewrite <- (rnd_int (-8)) by lia|rewrite <- (rnd_int 8) by lia]; apply rnd_le; lra.
  - apply Fin. eapply One; [apply c_val|reflexivity|left; lra|exact Ha].
  - apply Fin. eapply One; [apply c_val|reflexivity|left; lra|exact Ha].
  - apply Fin. eapply One; [apply mtf_val|reflexivity|left; lra|exact Ha].
  - apply Fin. eapply One; [apply kt_val|reflexivity|right; split; [lra|exact Ha]|lia].
  - apply Fin. eapply One; [apply kt_val|reflexivity|right; split; [lra|exact Ha]|lia].
Qed.

(** ** The integers *)
Lemma to_ulong_ok (x : double) : is_finite x = true -> (0 <= Ztrunc (B2R x) < 2 ^ 64)%Z -> to_ulong x = Ok (Z.to_N (Ztrunc (B2R x))).
Proof.
  intros F H. unfold to_ulong. rewrite dtrunc_val by exact F.
  replace ((0 <=? _)%Z && (_ <? 2 ^ 64)%Z) with true; [reflexivity|].
  symmetry. apply andb_true_intro. split; [apply Z.leb_le|apply Z.ltb_lt]; lia.
Qed.
Definition f32 : double := @B754_finite 53 1024 false 9007199252643839 (-21) eq_refl.
Lemma scale32 (u : double) : is_finite u = true -> 0 < B2R u < 1 ->
  exists j, to_ulong (dmul u (d_of_Z 4294967295)) = Ok j /\ (j < 4294967295)%N.
Proof.
  intros F H. pose proof (below_1 u F ltac:(lra)) as B.
  destruct (d_of_Z_val 4294967295) as (F1 & V1 & _); [lia|].
  destruct (dmul_val u (d_of_Z 4294967295) F F1) as (F2 & V2); [rewrite V1; apply moderate_le; lra|].
  rewrite V1 in V2.
  assert (L : 0 <= rnd (B2R u * 4294967295)) by (rewrite <- rnd_zero at 1; apply rnd_le; lra).
  assert (U : rnd (B2R u * 4294967295) < 4294967295).
  { apply Rle_lt_trans with (rnd (4294967295 - 4294967295 * / 9007199254740992)); [apply rnd_le; lra|].
    assert (E : B2R f32 = 9007199252643839 * / 2097152) by reflexivity.
    apply rnd_lt with f32; rewrite E; lra. }
  assert (T : (0 <= Ztrunc (rnd (B2R u * 4294967295)) < 4294967295)%Z).
  { rewrite Ztrunc_floor by exact L. split; [apply Zfloor_lub; exact L|].
    apply lt_IZR. apply Rle_lt_trans with (2 := U). apply Zfloor_lb. }
  eexists. split; [apply to_ulong_ok; [exact F2|rewrite V2; lia]|]. rewrite V2. lia.
Qed.
Lemma half_int k : (Z.abs k <= 2 ^ 53)%Z -> rnd (IZR k * / 2) = IZR k * / 2.
Proof.
  intro H. destruct (Z.eq_dec (Z.abs k) (2 ^ 53)) as [E|E].
  - replace (IZR k * / 2) with (IZR (k / 2)); [apply rnd_int|]; destruct (Z.abs_eq_or_opp k) as [A|A]; rewrite A in E.
    + subst k. cbn. lia.
    + replace k with (- 2 ^ 53)%Z by lia. cbn. lia.
    + subst k. change (2 ^ 53 / 2)%Z with (2 ^ 52)%Z. change (IZR (2 ^ 53)) with 9007199254740992. change (IZR (2 ^ 52)) with 4503599627370496. lra.
    + replace k with (- 2 ^ 53)%Z by lia. change (- 2 ^ 53 / 2)%Z with (- 4503599627370496)%Z. change (IZR (- 2 ^ 53)) with (-9007199254740992). lra.
  - unfold rnd. apply round_generic; auto with typeclass_instances.
    apply (generic_format_FLT radix2 (-1074) 53). exists (Float radix2 k (-1)).
    + unfold F2R. cbn [Fnum Fexp]. change (bpow radix2 (-1)) with (/ 2). reflexivity.
    + cbn [Fnum]. change (radix2 ^ 53)%Z with (2 ^ 53)%Z. lia.
    + cbn. lia.
Qed.
Lemma fixup_zero x : B2R x = 0 -> is_finite x = true -> fixup x = dmul dhalf i2_32m1.
Proof.
  intros V F. unfold fixup. replace (dle x dzero) with true; [reflexivity|]. symmetry. apply dle_val; [apply finite_nan, F|reflexivity|].
  rewrite val_zero, val_finite by exact F. lra.
Qed.
Lemma small_bpow x : / 1000000000000000000000000000000 <= x -> bpow radix2 (-1000) <= x.
Proof.
  intro H. apply Rle_trans with (2 := H). apply Rle_trans with (bpow radix2 (-100)); [apply bpow_le; lia|].
  change (bpow radix2 (-100)) with (/ 1267650600228229401496703205376). lra.
Qed.

(** The Mersenne twister: the number is the word over 2^32, and the integer the
    word less one. *)
Lemma mt_unif a : (a < 2 ^ 32)%N -> exists u, r_unif MERSENNE_TWISTER [a] = Ok u /\ is_finite u = true /\
  (a <> 0%N -> B2R u = IZR (Z.of_N a) * / 4294967296) /\ to_ulong (r_scale MERSENNE_TWISTER u) = Ok (N.pred a).
Proof.
  intro H. destruct (word_val a H) as (F & V & R). unfold r_unif. cbn [nth].
  destruct (dmul_val (d_of_Z (Z.of_N a)) MTF F eq_refl) as (F1 & V1); [rewrite V, mtf_val; apply moderate_le; lra|].
  assert (E : B2R (dmul (d_of_Z (Z.of_N a)) MTF) = IZR (Z.of_N a) * / 4294967296).
  { rewrite V1, V, mtf_val. unfold rnd. apply round_generic; auto with typeclass_instances.
    apply (generic_format_FLT radix2 (-1074) 53). exists (Float radix2 (Z.of_N a) (-32)).
    - unfold F2R. cbn [Fnum Fexp]. reflexivity.
    - cbn [Fnum]. change (radix2 ^ 53)%Z with (2 ^ 53)%Z. lia.
    - cbn. lia. }
  clear V1. generalize dependent (dmul (d_of_Z (Z.of_N a)) MTF). intros x F1 E.
  destruct (d_of_Z_val 4294967295) as (F2 & V2 & _); [lia|]. unfold r_scale.
  eexists. split; [reflexivity|]. destruct (N.eq_dec a 0) as [->|Ne].
  - rewrite fixup_zero by (auto; rewrite E; cbn; lra). destruct half_c as (Fc & Vc). rewrite tiny_val in Vc.
    split; [exact Fc|]. split; [contradiction|].
    destruct (dmul_val (dmul dhalf i2_32m1) (d_of_Z 4294967295) Fc F2) as (F3 & V3); [rewrite V2, Vc; apply moderate_le; lra|].
    rewrite V2, Vc in V3.
    assert (T : Ztrunc (B2R (dmul (dmul dhalf i2_32m1) (d_of_Z 4294967295))) = 0%Z).
    { apply trunc_between; [|lia]. rewrite V3. split; [rewrite <- (rnd_int 0) by lia; apply rnd_le; lra|].
      apply Rle_lt_trans with (rnd (B2R below1)); [apply rnd_le; rewrite below1_val; lra|]. rewrite rnd_double, below1_val. change (IZR (0 + 1)) with 1. lra. }
    rewrite to_ulong_ok by (auto; lia). rewrite T. reflexivity.
  - assert (1 <= IZR (Z.of_N a)) by (apply (IZR_le 1); lia).
    rewrite fixup_id by (auto; lra). split; [exact F1|]. split; [auto|].
    destruct (dmul_val x (d_of_Z 4294967295) F1 F2) as (F3 & V3); [rewrite V2, E; apply moderate_le; lra|].
    rewrite V2, E in V3.
    assert (T : Ztrunc (B2R (dmul x (d_of_Z 4294967295))) = (Z.of_N a - 1)%Z).
    { apply trunc_between; [|lia]. rewrite V3. split.
      - rewrite <- (rnd_int (Z.of_N a - 1)) by lia. apply rnd_le. rewrite minus_IZR. lra.
      - replace (Z.of_N a - 1 + 1)%Z with (Z.of_N a) by lia. eapply Rle_lt_trans; [apply rnd_rel; apply small_bpow; lra|]. lra. }
    rewrite to_ulong_ok by (auto; lia). rewrite T. f_equal. lia.
Qed.
(** Knuth's generators: the same number from both, and the integers are the word
    less one. *)
Lemma kt_unif a : (a < 2 ^ 30)%N -> exists u, r_unif KNUTH_TAOCP [a] = Ok u /\ r_unif KNUTH_TAOCP2 [a] = Ok u /\ is_finite u = true /\
  to_ulong (r_scale KNUTH_TAOCP u) = Ok (N.pred a) /\ to_ulong (r_scale KNUTH_TAOCP2 u) = Ok (N.pred a).
Proof.
  intro H. destruct (word_val a) as (F & V & R); [lia|]. unfold r_unif. cbn [nth].
  assert (R2 : IZR (Z.of_N a) <= 1073741823) by (apply (IZR_le _ 1073741823); lia).
  destruct (dmul_val (d_of_Z (Z.of_N a)) KT F eq_refl) as (F1 & V1); [rewrite V, kt_val; apply moderate_le; lra|].
  rewrite V, kt_val in V1. generalize dependent (dmul (d_of_Z (Z.of_N a)) KT). intros x F1 E.
  destruct (d_of_Z_val 1073741823) as (Fm & Vm & _); [lia|]. destruct (d_of_Z_val 1073741824) as (Fn & Vn & _); [lia|].
  destruct (d_of_Z_val 1) as (Fo & Vo & _); [lia|]. unfold r_scale.
  eexists. split; [reflexivity|]. split; [reflexivity|]. destruct (N.eq_dec a 0) as [->|Ne].
  - rewrite fixup_zero by (auto; rewrite E; replace (IZR (Z.of_N 0) * _) with 0 by (cbn; lra); apply rnd_zero).
    destruct half_c as (Fc & Vc). rewrite tiny_val in Vc. split; [exact Fc|].
    generalize dependent (dmul dhalf i2_32m1). intros t Fc Vc. split.
    + destruct (dmul_val t (d_of_Z 1073741823) Fc Fm) as (F3 & V3); [rewrite Vm, Vc; apply moderate_le; lra|]. rewrite Vm, Vc in V3.
      assert (T : Ztrunc (B2R (dmul t (d_of_Z 1073741823))) = 0%Z).
      { apply trunc_between; [|lia]. rewrite V3. split; [rewrite <- (rnd_int 0) by lia; apply rnd_le; lra|].
        apply Rle_lt_trans with (rnd (B2R below1)); [apply rnd_le; rewrite below1_val; lra|]. rewrite rnd_double, below1_val. change (IZR (0 + 1)) with 1. lra. }
      rewrite to_ulong_ok by (auto; lia). rewrite T. reflexivity.
    + destruct (dmul_val t (d_of_Z 1073741824) Fc Fn) as (F3 & V3); [rewrite Vn, Vc; apply moderate_le; lra|]. rewrite Vn, Vc in V3.
      assert (B : / 16 <= B2R (dmul t (d_of_Z 1073741824)) <= / 2).
      { rewrite V3. replace (/ 16) with (rnd (/ 16)).
        - split; [apply rnd_le; lra|]. rewrite <- rnd_half. apply rnd_le. lra.
        - change (/ 16) with (bpow radix2 (-4)). unfold rnd. apply round_generic; auto with typeclass_instances.
          apply generic_format_bpow. unfold SpecFloat.fexp. cbn. lia. }
      generalize dependent (dmul t (d_of_Z 1073741824)). intros y F3 _ B.
      destruct (dsub_mod y (d_of_Z 1) F3 Fo) as (F4 & V4); [rewrite Vo; apply moderate_le; lra|]. rewrite Vo in V4.
      assert (T : Ztrunc (B2R (dsub y (d_of_Z 1))) = 0%Z).
      { rewrite V4. assert (U : rnd (B2R y - 1) <= 0) by (apply Rle_trans with (rnd 0); [apply rnd_le; lra|rewrite rnd_zero; lra]).
        rewrite Ztrunc_ceil by exact U. apply Zceil_imp. split; [|exact U]. change (IZR (0 - 1)) with (-1).
        apply Rlt_le_trans with (rnd (B2R (Bopp below1))); [|apply rnd_le; rewrite B2R_Bopp, below1_val; lra].
        rewrite rnd_double, B2R_Bopp, below1_val. lra. }
      rewrite to_ulong_ok by (auto; lia). rewrite T. reflexivity.
  - assert (A1 : 1 <= IZR (Z.of_N a)) by (apply (IZR_le 1); lia).
    assert (X : IZR (Z.of_N a) * / 1073741824 <= B2R x <= IZR (Z.of_N a) * / 1073741824 * (1 + / 1125899906842624)).
    { rewrite E. pose proof (rnd_rel (IZR (Z.of_N a) * (4503599627370498 * / 4835703278458516698824704)) ltac:(apply small_bpow; lra)) as Q. lra. }
    clear E. rewrite fixup_id by (auto; lra). split; [exact F1|]. split.
    + destruct (dmul_val x (d_of_Z 1073741823) F1 Fm) as (F3 & V3); [rewrite Vm; apply moderate_le; lra|]. rewrite Vm in V3.
      assert (T : Ztrunc (B2R (dmul x (d_of_Z 1073741823))) = (Z.of_N a - 1)%Z).
      { apply trunc_between; [|lia]. rewrite V3. split.
        - rewrite <- (rnd_int (Z.of_N a - 1)) by lia. apply rnd_le. rewrite minus_IZR. lra.
        - replace (Z.of_N a - 1 + 1)%Z with (Z.of_N a) by lia. eapply Rle_lt_trans; [apply rnd_rel; apply small_bpow; lra|]. lra. }
      rewrite to_ulong_ok by (auto; lia). rewrite T. f_equal. lia.
    + destruct (dmul_val x (d_of_Z 1073741824) F1 Fn) as (F3 & V3); [rewrite Vn; apply moderate_le; lra|]. rewrite Vn in V3.
      assert (Y : IZR (Z.of_N a) <= B2R (dmul x (d_of_Z 1073741824)) <= IZR (Z.of_N a) + / 4).
      { rewrite V3. split; [rewrite <- (rnd_int (Z.of_N a)) at 1 by lia; apply rnd_le; lra|].
        eapply Rle_trans; [apply rnd_rel; apply small_bpow; lra|]. lra. }
      generalize dependent (dmul x (d_of_Z 1073741824)). intros y F3 _ Y.
      destruct (dsub_mod y (d_of_Z 1) F3 Fo) as (F4 & V4); [rewrite Vo; apply moderate_le; lra|]. rewrite Vo in V4.
      assert (T : Ztrunc (B2R (dsub y (d_of_Z 1))) = (Z.of_N a - 1)%Z).
      { apply trunc_between; [|lia]. rewrite V4. split.
        - rewrite <- (rnd_int (Z.of_N a - 1)) by lia. apply rnd_le. rewrite minus_IZR. lra.
        - replace (Z.of_N a - 1 + 1)%Z with (Z.of_N a) by lia. apply Rle_lt_trans with (rnd (IZR (2 * Z.of_N a - 1) * / 2)).
          + apply rnd_le. rewrite minus_IZR, mult_IZR. lra.
          + rewrite half_int by lia. rewrite minus_IZR, mult_IZR. lra. }
      rewrite to_ulong_ok by (auto; lia). rewrite T. f_equal. lia.
Qed.
