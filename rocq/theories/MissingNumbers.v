(** Bounds of (1 - a/M)^n for n = 2^k, by repeated squaring in fixed-point
    arithmetic. *)
From Coq Require Import Lia Lra ZArith.
From Verif Require Export MissingLaw2.
Open Scope R_scope.

Fixpoint sqlo (k : nat) (s a : Z) : Z := match k with O => a | S k => sqlo k s (a * a / s)%Z end.
Fixpoint sqhi (k : nat) (s a : Z) : Z := match k with O => a | S k => sqhi k s (a * a / s + 1)%Z end.
Lemma pow_double (x : R) k : x ^ (2 ^ S k) = (x * x) ^ (2 ^ k).
Proof. rewrite Nat.pow_succ_r', pow_mult. f_equal. ring. Qed.
Lemma sqlo_ok s k : (0 < s)%Z -> forall a x, (0 <= a)%Z -> IZR a <= x * IZR s -> IZR (sqlo k s a) <= x ^ (2 ^ k) * IZR s.
Proof.
  intro Sp. assert (SR : 0 < IZR s) by (now apply IZR_lt). induction k as [|k IH]; intros a x A X; [now rewrite pow_1|]. cbn [sqlo]. rewrite pow_double. apply IH.
  - apply Z.div_pos; nia.
  - assert (AR : 0 <= IZR a) by (now apply IZR_le). apply (Rmult_le_reg_l (IZR s)); [exact SR|]. rewrite <- mult_IZR.
    apply Rle_trans with (IZR (a * a)); [apply IZR_le, Z.mul_div_le; lia|]. rewrite mult_IZR.
    replace (IZR s * (x * x * IZR s)) with ((x * IZR s) * (x * IZR s)) by ring. apply Rmult_le_compat; assumption.
Qed.
Lemma sqhi_ok s k : (0 < s)%Z -> forall a x, 0 <= x -> x * IZR s <= IZR a -> x ^ (2 ^ k) * IZR s <= IZR (sqhi k s a).
Proof.
  intro Sp. assert (SR : 0 < IZR s) by (now apply IZR_lt). induction k as [|k IH]; intros a x A X; [now rewrite pow_1|]. cbn [sqhi]. rewrite pow_double. apply IH; [nra|].
  apply (Rmult_le_reg_l (IZR s)); [exact SR|]. rewrite <- mult_IZR.
  apply Rle_trans with (IZR (a * a)).
  - rewrite mult_IZR. replace (IZR s * (x * x * IZR s)) with ((x * IZR s) * (x * IZR s)) by ring. assert (0 <= x * IZR s) by nra. apply Rmult_le_compat; assumption.
  - apply IZR_le. pose proof (Z.mod_pos_bound (a * a) s Sp). pose proof (Z.div_mod (a * a) s). lia.
Qed.
Lemma two_pow k : N.to_nat (2 ^ k) = (2 ^ N.to_nat k)%nat.
Proof. rewrite N2Nat.inj_pow. reflexivity. Qed.

(** a/2^e subtracted from 1, raised to the power 2^k *)
Definition fix_one : Z := (2 ^ 160)%Z.
Lemma power_bounds (e a : Z) (k : nat) lo hi : (0 <= a <= 2 ^ e)%Z -> (0 <= e <= 160)%Z ->
  let b := ((2 ^ e - a) * 2 ^ (160 - e))%Z in
  (lo <=? sqlo k fix_one b)%Z = true -> (sqhi k fix_one b <=? hi)%Z = true ->
  IZR lo / IZR fix_one <= (1 - IZR a / IZR (2 ^ e)) ^ (2 ^ k) <= IZR hi / IZR fix_one.
Proof.
  intros A E b L Hi. assert (P : (0 < fix_one)%Z) by reflexivity. assert (PR : 0 < IZR fix_one) by (now apply IZR_lt).
  assert (X : (1 - IZR a / IZR (2 ^ e)) * IZR fix_one = IZR b).
  { unfold b. rewrite mult_IZR, minus_IZR. replace fix_one with (2 ^ e * 2 ^ (160 - e))%Z by (unfold fix_one; rewrite <- Z.pow_add_r by lia; f_equal; lia).
    rewrite mult_IZR. field. apply two_ne. lia. }
  assert (B : (0 <= b)%Z) by (unfold b; apply Z.mul_nonneg_nonneg; [lia|apply Z.pow_nonneg; lia]).
  assert (XP : 0 <= 1 - IZR a / IZR (2 ^ e)).
  { apply (Rmult_le_reg_r (IZR fix_one)); [exact PR|]. rewrite Rmult_0_l, X. now apply IZR_le. }
  apply Z.leb_le in L, Hi. apply IZR_le in L, Hi.
  pose proof (sqlo_ok fix_one k P b _ B (Req_le _ _ (eq_sym X))). pose proof (sqhi_ok fix_one k P b _ XP (Req_le _ _ X)).
  split; apply (Rmult_le_reg_r (IZR fix_one)); try exact PR; unfold Rdiv; rewrite Rmult_assoc, Rinv_l, Rmult_1_r by lra; lra.
Qed.
Lemma power_dec (e a : Z) (k : nat) lo hi : (0 <= a <= 2 ^ e)%Z -> (0 <= e <= 160)%Z ->
  let b := ((2 ^ e - a) * 2 ^ (160 - e))%Z in
  (lo * fix_one <=? sqlo k fix_one b * 10 ^ 40)%Z = true -> (sqhi k fix_one b * 10 ^ 40 <=? hi * fix_one)%Z = true ->
  IZR lo / IZR (10 ^ 40) <= (1 - IZR a / IZR (2 ^ e)) ^ (2 ^ k) <= IZR hi / IZR (10 ^ 40).
Proof.
  intros A E b L Hi. pose proof (power_bounds e a k _ _ A E (Z.leb_refl _) (Z.leb_refl _)) as (P & Q). fold b in P, Q.
  apply Z.leb_le, IZR_le in L. apply Z.leb_le, IZR_le in Hi. rewrite !mult_IZR in L, Hi.
  assert (F : 0 < IZR fix_one) by (now apply IZR_lt). assert (T : 0 < IZR (10 ^ 40)) by (now apply IZR_lt).
  set (f := IZR fix_one) in *. set (t := IZR (10 ^ 40)) in *. set (lo' := IZR (sqlo _ _ _)) in *. set (hi' := IZR (sqhi _ _ _)) in *. clearbody f t lo' hi'. split.
  - eapply Rle_trans; [|exact P]. apply (Rmult_le_reg_r (f * t)); [nra|].
    replace (IZR lo / t * (f * t)) with (IZR lo * f) by (field; lra). replace (lo' / f * (f * t)) with (lo' * t) by (field; lra). exact L.
  - eapply Rle_trans; [exact Q|]. apply (Rmult_le_reg_r (f * t)); [nra|].
    replace (hi' / f * (f * t)) with (hi' * t) by (field; lra). replace (IZR hi / t * (f * t)) with (IZR hi * f) by (field; lra). exact Hi.
Qed.
Lemma powers20 : let n := N.to_nat (2 ^ 21) in
  1353351541708084511173211449513852186170 / IZR (10 ^ 40) <= (1 - 1 / IZR (2 ^ 20)) ^ n <= 1353351541708084511173211449513852186171 / IZR (10 ^ 40) /\
  183155690201610145776339904157456488276 / IZR (10 ^ 40) <= (1 - 2 / IZR (2 ^ 20)) ^ n <= 183155690201610145776339904157456488277 / IZR (10 ^ 40).
Proof. intro n. unfold n. rewrite two_pow. change (N.to_nat 21) with 21%nat. split; apply power_dec; try lia; vm_compute; reflexivity. Qed.
Lemma powers24 : let n := N.to_nat (2 ^ 26) in
  183156367053399240792043002557205581633 / IZR (10 ^ 40) <= (1 - 1 / IZR (2 ^ 24)) ^ n <= 183156367053399240792043002557205581634 / IZR (10 ^ 40) /\
  3354624679414910915577199696460737005 / IZR (10 ^ 40) <= (1 - 2 / IZR (2 ^ 24)) ^ n <= 3354624679414910915577199696460737006 / IZR (10 ^ 40).
Proof. intro n. unfold n. rewrite two_pow. change (N.to_nat 26) with 26%nat. split; apply power_dec; try lia; vm_compute; reflexivity. Qed.
