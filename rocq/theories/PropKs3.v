(** Findings about the Kolmogorov-Smirnov test of the p-values: C99 the verdict
    as a probability, C100 p-values that are not numbers. *)
From Coq Require Import ZArith Reals Lra Lia List Permutation Sorted Bool.
From Flocq Require Import Core IEEE754.BinarySingleNaN.
From Verif Require Import KsModel KsSpec KsLemmas KsLemmas2 KsLemmas3 KsLemmas4 KsLemmas5 PropKs DoubleLemmas DoubleLemmas2 DoubleLemmas3 BaseLemmas.
Import ListNotations.
Open Scope R_scope.

Section Ks.
Variables (dpow : double -> Z -> double) (dexp : double -> double).
Notation D := (doubles dpow dexp).

Lemma lit_unit a b : (0 <= a <= b)%Z -> (1 <= b <= 1000)%Z -> is_finite (d_lit a b) = true /\ 0 <= B2R (d_lit a b) <= 1.
Proof.
  intros A B. unfold d_lit. destruct (d_of_Z_val a) as (Fa & Va & _); [lia|]. destruct (d_of_Z_val b) as (Fb & Vb & _); [lia|].
  assert (RA : 0 <= IZR a <= IZR b) by (split; apply IZR_le; lia). assert (RB : 1 <= IZR b) by (apply IZR_le; lia).
  assert (Q : 0 <= IZR a / IZR b <= 1).
  { split; [apply Rmult_le_pos; [lra|]; apply Rlt_le, Rinv_0_lt_compat; lra|].
    apply Rmult_le_reg_r with (IZR b); [lra|]. unfold Rdiv. rewrite Rmult_assoc, Rinv_l by lra. lra. }
  destruct (ddiv_mod (d_of_Z a) (d_of_Z b) Fa) as (F & V); [rewrite Vb; lra|apply moderate_le; rewrite Va, Vb; lra|].
  split; [exact F|]. rewrite V, Va, Vb. split; [rewrite <- rnd_zero; apply rnd_le; lra|].
  apply Rle_trans with (rnd 1); [apply rnd_le; lra|rewrite rnd_one; lra].
Qed.
Lemma many_zero n : (5000 <= n <= 2147483647)%Z -> (forall z, is_zero z -> dexp z = DoubleModel.done) ->
  from_dmax dpow dexp 0 n dzero = Ok (d_of_Z 2).
Proof.
  intros N E. unfold from_dmax. destruct (Z.gtb_spec n 4999); [|lia]. cbn [N.eqb andb]. f_equal. apply q_ks_zero; [exact E|].
  apply zero_mul_r; [|exists false; reflexivity].
  destruct (lit_unit 12 100) as (F1 & R1); try lia. destruct (lit_unit 11 100) as (F2 & R2); try lia. apply factor_fin; auto. lia.
Qed.

(** C99: that the verdict is a probability is false: with the default setting
    and 5000 or more p-values exactly where the test expects them, it is 2. *)
Theorem C99_refuted : forall srt n, sorts srt -> (forall z, is_zero z -> dexp z = DoubleModel.done) ->
  (5000 <= Z.of_nat n <= 2147483647)%Z ->
  exists pv, length pv = n /\ Forall pvalue_ok pv /\ verdict (kstest D srt 0 pv (Z.of_nat n)) = Ok (d_of_Z 2).
Proof.
  intros srt n S E N. exists (ideal n). split; [apply ideal_length|]. split; [apply ideal_ok; lia|].
  rewrite <- (ideal_length n) at 2. rewrite kstest_whole by (rewrite ideal_length; lia).
  rewrite ideal_length, dmax_ideal by (auto; lia). now apply many_zero.
Qed.

(** ** p_ks_new at distance 0 *)
Hypothesis pow_one : dpow DoubleModel.done 1 = DoubleModel.done.
Hypothesis pow_ten : forall e, (e <= 0)%Z -> is_finite (dpow (d_lit 10 1) e) = true.
Lemma power_zero : forall fuel n v, (1 <= n < 2 ^ Z.of_nat fuel)%Z ->
  mPower D fuel [dzero] 0 [v] 1 n = Ok ([dzero], 0%Z).
Proof.
  induction fuel as [|fuel IH]; intros n v N; [change (2 ^ Z.of_nat 0)%Z with 1%Z in N; lia|]. cbn [mPower].
  destruct (Z.eqb_spec n 1) as [->|N1]; [reflexivity|].
  rewrite Nat2Z.inj_succ, Z.pow_succ_r in N by lia.
  rewrite IH by (split; [apply Z.div_le_lower_bound; lia|apply Z.div_lt_upper_bound; lia]). cbn [bind].
  assert (M : mMultiply D [dzero] [dzero] (repeat (nint D 0) (1 * 1)) 1 = Ok [dzero]) by (vm_compute; reflexivity).
  assert (M' : mMultiply D [dzero] [dzero] [dzero] 1 = Ok [dzero]) by (vm_compute; reflexivity).
  change (num D) with double in *. rewrite M. cbn [bind]. destruct (n mod 2 =? 0)%Z; [reflexivity|]. rewrite M'. reflexivity.
Qed.
Lemma H_zero : fill_H D 1 DoubleModel.done = Ok [dzero].
Proof.
  destruct (fill_H_ok D 1 DoubleModel.done ltac:(lia)) as (H & E & L & EH). rewrite E. f_equal.
  destruct H as [|x [|y H]]; cbn in L; try discriminate. f_equal. specialize (EH 0%nat 0%nat ltac:(lia) ltac:(lia)).
  change (ent D 1 [x] 0 0) with x in EH. rewrite EH. unfold H_entry, stage, corner. cbn [Nat.sub Nat.add Nat.eqb Nat.ltb Nat.leb andb sub_if].
  change (npow D) with dpow. change (Z.of_nat 0 + 1)%Z with 1%Z. change (Z.of_nat 1 - Z.of_nat 0)%Z with 1%Z. rewrite pow_one.
  assert (E2 : nsub D (nmul D (nint D 2) DoubleModel.done) (nint D 1) = DoubleModel.done) by (apply B2SF_inj; vm_compute; reflexivity).
  rewrite E2. change (Z.of_nat 1) with 1%Z. rewrite pow_one. apply B2SF_inj. vm_compute. reflexivity.
Qed.
Lemma factorials_zero n : (1 <= n <= 15000000)%Z -> exists z e, factorials D n dzero 0 = Ok (z, e) /\ is_zero z /\ (e <= 0)%Z.
Proof.
  intro N. unfold factorials. cbv zeta.
  match goal with |- context[for_ _ _ ?f ?z] =>
    destruct (for_inv (fun i se => is_zero (fst se) /\ (snd se = -140 * (i - 1))%Z) f (Z.to_nat n) 1%Z z) as (se & EE & R1 & R2) end.
  - split; [exists false; reflexivity|reflexivity].
  - intros i (s, e) I (H1 & H2). cbn [fst snd] in *. change (nmul D) with dmul. change (ndiv D) with ddiv. change (nint D) with d_of_Z.
    change (ngt D) with dgt.
    assert (Z1 : is_zero (ddiv (dmul s (d_of_Z i)) (d_of_Z n))).
    { destruct (d_of_Z_val n) as (F & V & _); [lia|]. apply zero_div; [exact F|rewrite V; apply IZR_neq; lia|].
      apply zero_mul_l; [apply int_fin; lia|exact H1]. }
    destruct Z1 as (sg & ->). assert (G : dgt (em140 D) (B754_zero sg) = true) by (destruct sg; reflexivity). rewrite G.
    destruct (Z.ltb_spec (e - 140) (- 2 ^ 31)); [lia|]. eexists. split; [reflexivity|]. cbn [fst snd]. split; [|lia].
    apply zero_mul_l; [reflexivity|exists sg; reflexivity].
  - exists (fst se), (snd se). split; [destruct se; exact EE|]. split; [exact R1|]. lia.
Qed.
Lemma p_zero ks_test n : (1 <= n <= 15000000)%Z -> p_ks_new D ks_test n dzero = Ok DoubleModel.done.
Proof.
  intro N. unfold p_ks_new. cbv zeta. change (nmul D) with dmul. change (nint D) with d_of_Z. change (ngt D) with dgt. change (nsub D) with dsub.
  change (nlit D) with d_lit. change (ntrunc D) with dtrunc. change (npow D) with dpow.
  destruct (zero_mul_l (d_of_Z n) (int_fin n ltac:(lia)) (dmul dzero dzero)) as (sg & Es); [exists false; reflexivity|].
  change (num D) with double. rewrite Es.
  assert (G1 : dgt (B754_zero sg) (d_lit 724 100) = false) by (destruct sg; vm_compute; reflexivity).
  assert (G2 : dgt (B754_zero sg) (d_lit 376 100) = false) by (destruct sg; vm_compute; reflexivity).
  rewrite G1, G2. cbn [orb andb]. rewrite andb_false_r.
  destruct (zero_mul_r (d_of_Z n) (int_fin n ltac:(lia)) dzero) as (sg' & Ez); [exists false; reflexivity|]. rewrite Ez.
  cbn [dtrunc]. change ((0 <? - 2 ^ 31) || (2 ^ 31 - 1 <? 0 + 1))%Z with false. cbn match.
  change ((2 * (0 + 1) - 1 <? 1) || (2 ^ 31 <=? (2 * (0 + 1) - 1) * (2 * (0 + 1) - 1)))%Z with false. cbn match.
  assert (Eh : dsub (d_of_Z (0 + 1)) (B754_zero sg') = DoubleModel.done) by (apply B2SF_inj; destruct sg'; vm_compute; reflexivity).
  rewrite Eh. change (Z.to_nat (2 * (0 + 1) - 1)) with 1%nat. rewrite H_zero. cbn [bind].
  change (repeat (d_of_Z 0) (1 * 1)) with [d_of_Z 0]. pose proof (power_zero 32 n (d_of_Z 0) ltac:(cbn; lia)) as PZ.
  change (num D) with double in PZ. rewrite PZ. cbn [bind].
  change (aget [dzero] ((0 + 1 - 1) * Z.of_nat 1 + (0 + 1) - 1)) with (Ok dzero). cbn [bind].
  destruct (factorials_zero n N) as (z & e & -> & Z0 & E0). cbn [bind]. f_equal.
  destruct (zero_mul_l (dpow (d_lit 10 1) e) (pow_ten e E0) z Z0) as (s3 & ->). apply B2SF_inj. destruct s3; vm_compute; reflexivity.
Qed.

(** C100: that p-values which are not numbers show in the verdict is false: if
    none is a number, the verdict is 1 (or 2, for 5000 and more of them with
    the default setting). *)
Lemma dmax_nan : forall n i count, dmax_loop D i count (repeat dnan n) dzero = dzero.
Proof. induction n as [|n IH]; intros i count; [reflexivity|]. cbn [repeat]. rewrite dmax_step. apply IH. Qed.
Lemma perm_repeat (x : double) n l : Permutation (repeat x n) l -> l = repeat x n.
Proof.
  intro P. assert (F : Forall (fun y => y = x) l).
  { eapply Permutation_Forall; [exact P|]. apply Forall_forall. intros y I. now apply repeat_spec in I. }
  apply Permutation_length in P. rewrite repeat_length in P. subst n.
  clear - F. induction l as [|y l IH]; [reflexivity|]. inversion F; subst. cbn [length repeat]. now rewrite <- IH.
Qed.
Theorem C100_refuted : forall srt ks_test n, (forall l, Permutation l (srt l)) -> (2 <= Z.of_nat n <= 15000000)%Z ->
  (ks_test = 0%N -> (Z.of_nat n <= 4999)%Z) ->
  verdict (kstest D srt ks_test (repeat dnan n) (Z.of_nat n)) = Ok DoubleModel.done.
Proof.
  intros srt ks n P N K. pose proof (kstest_whole dpow dexp srt ks (repeat dnan n)) as W. rewrite repeat_length in W.
  rewrite W by lia. rewrite (perm_repeat _ _ _ (P (repeat dnan n))), dmax_nan. unfold from_dmax.
  replace ((ks =? 0)%N && (Z.of_nat n >? 4999)%Z) with false.
  - apply p_zero. lia.
  - destruct (N.eqb_spec ks 0) as [E|E]; [|reflexivity]. specialize (K E). destruct (Z.gtb_spec (Z.of_nat n) 4999); [lia|reflexivity].
Qed.
Theorem C100_many_refuted : forall srt n, (forall l, Permutation l (srt l)) -> (forall z, is_zero z -> dexp z = DoubleModel.done) ->
  (5000 <= Z.of_nat n <= 2147483647)%Z ->
  verdict (kstest D srt 0 (repeat dnan n) (Z.of_nat n)) = Ok (d_of_Z 2).
Proof.
  intros srt n P E N. pose proof (kstest_whole dpow dexp srt 0 (repeat dnan n)) as W. rewrite repeat_length in W.
  rewrite W by lia. rewrite (perm_repeat _ _ _ (P (repeat dnan n))), dmax_nan. now apply many_zero.
Qed.
End Ks.

(** The assumptions about exp, pow and the sort can be met. *)
Definition pow_ex (x : double) (e : Z) : double := if (e =? 1)%Z then x else dzero.
Definition exp_ex (x : double) : double := DoubleModel.done.
Example C99_ex : exp_ex dzero = DoubleModel.done /\ pow_ex DoubleModel.done 1 = DoubleModel.done /\
  (forall e, (e <= 0)%Z -> is_finite (pow_ex (d_lit 10 1) e) = true).
Proof.
  split; [reflexivity|]. split; [reflexivity|]. intros e E. unfold pow_ex. destruct (Z.eqb_spec e 1); [lia|reflexivity].
Qed.
Example C100_ex : verdict (kstest (doubles pow_ex exp_ex) (fun l => l) 0 (repeat dnan 20) 20) = Ok DoubleModel.done.
Proof. apply (C100_refuted pow_ex exp_ex) with (n := 20%nat); try apply C99_ex; auto; lia. Qed.
Print Assumptions C99_refuted.
Print Assumptions C100_refuted.
Print Assumptions C100_many_refuted.
