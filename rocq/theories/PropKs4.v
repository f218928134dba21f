(** C101: overflow in the Kolmogorov-Smirnov test; C102: the Kuiper test may not end. *)
From Coq Require Import ZArith Reals Lra Lia List Permutation Sorted Bool.
From Flocq Require Import Core IEEE754.BinarySingleNaN.
From Verif Require Import KsModel KsSpec KsLemmas KsLemmas2 KsLemmas3 KsLemmas4 KsLemmas5 PropKs PropKs3 DoubleLemmas DoubleLemmas2 DoubleLemmas3 SphereLemmas SphereLemmas2 BaseLemmas.
Import ListNotations.
Open Scope R_scope.

Section Ks.
Variables (dpow : double -> Z -> double) (dexp : double -> double).
Notation D := (doubles dpow dexp).

Lemma factorials_some n s e : (1 <= n <= 15000000)%Z -> (0 <= e)%Z -> exists r, factorials D n s e = Ok r.
Proof.
  intros N E. unfold factorials. cbv zeta.
  match goal with |- context[for_ _ _ ?f ?z] =>
    destruct (for_inv (fun i se => (-140 * (i - 1) <= snd se)%Z) f (Z.to_nat n) 1%Z z) as (se & EE & _) end.
  - cbn [snd]. lia.
  - intros i (s1, e1) I H. cbn [fst snd] in *. destruct (ngt D _ _).
    + destruct (Z.ltb_spec (e1 - 140) (- 2 ^ 31)); [lia|]. eexists. split; [reflexivity|]. cbn [snd]. lia.
    + eexists. split; [reflexivity|]. cbn [snd]. lia.
  - eexists. exact EE.
Qed.
(** the matrix computation ends well whenever its dimension can be computed *)
Lemma matrix_part n t h : (1 <= n <= 15000000)%Z -> (0 <= t <= 23169)%Z ->
  exists p, (do H <- fill_H D (Z.to_nat (2 * (t + 1) - 1)) h ;;
             do r <- mPower D 32 H 0 (repeat (nint D 0) (Z.to_nat (2 * (t + 1) - 1) * Z.to_nat (2 * (t + 1) - 1))) (Z.to_nat (2 * (t + 1) - 1)) n ;;
             let '(Q, eQ) := r in
             do s <- aget Q ((t + 1 - 1) * Z.of_nat (Z.to_nat (2 * (t + 1) - 1)) + (t + 1) - 1) ;;
             do r <- factorials D n s eQ ;; let '(s, eQ) := r in
             Ok (nsub D (nint D 1) (nmul D s (npow D (nlit D 10 1) eQ)))) = Ok p.
Proof.
  intros N T. set (m := Z.to_nat (2 * (t + 1) - 1)). assert (M : (0 < m)%nat) by lia.
  assert (Tm : (Z.to_nat t < m)%nat) by lia.
  destruct (fill_H_ok D m h M) as (H & -> & LH & _). cbn [bind].
  destruct (mPower_ok D m H 0 LH (fun _ _ e => (0 <= e)%Z)) with (fuel := 32%nat) (n := n) (V := repeat (nint D 0) (m * m)) as (Q & e & -> & LQ & E0); auto; try (intros; lia).
  - apply repeat_length.
  - cbn [bind]. replace ((t + 1 - 1) * Z.of_nat m + (t + 1) - 1)%Z with (Z.of_nat (Z.to_nat t * m + Z.to_nat t)) by lia.
    rewrite (get_nat (nint D 0)) by (rewrite LQ; assert ((Z.to_nat t + 1) * m <= m * m)%nat by (apply Nat.mul_le_mono_r; lia); lia). cbn [bind].
    destruct (factorials_some n (nth (Z.to_nat t * m + Z.to_nat t) Q (nint D 0)) e N E0) as ((s, e') & ->). cbn [bind]. eexists. reflexivity.
Qed.
Lemma prod_val n (d : double) : (1 <= n <= 2147483647)%Z -> is_finite d = true -> 0 <= B2R d <= 1 ->
  dtrunc (dmul (d_of_Z n) d) = Some (Zfloor (rnd (IZR n * B2R d))) /\ 0 <= rnd (IZR n * B2R d).
Proof.
  intros N F R. destruct (d_of_Z_val n) as (Fn & Vn & _); [lia|]. assert (NR : 1 <= IZR n <= 2147483647) by (split; apply IZR_le; lia).
  destruct (dmul_val (d_of_Z n) d Fn F) as (Fp & Vp); [apply moderate_le; rewrite Vn; nra|]. rewrite Vn in Vp.
  assert (P : 0 <= rnd (IZR n * B2R d)) by (rewrite <- rnd_zero; apply rnd_le; nra).
  split; [|exact P]. rewrite dtrunc_val by exact Fp. rewrite Vp, Ztrunc_floor by exact P. reflexivity.
Qed.
Lemma floor_le x z : (0 <= x) -> x <= IZR z -> (0 <= Zfloor x <= z)%Z.
Proof.
  intros P H. split; [apply Zfloor_lub; exact P|]. rewrite <- (Zfloor_IZR z). now apply Zfloor_le.
Qed.
Lemma lit_376 : is_finite (d_lit 376 100) = true /\ B2R (d_lit 376 100) <= 4.
Proof.
  unfold d_lit. destruct (d_of_Z_val 376) as (Fa & Va & _); [lia|]. destruct (d_of_Z_val 100) as (Fb & Vb & _); [lia|].
  destruct (ddiv_mod (d_of_Z 376) (d_of_Z 100) Fa) as (Fl & Vl); [rewrite Vb; lra|apply moderate_le; rewrite Va, Vb; lra|].
  split; [exact Fl|]. rewrite Vl, Va, Vb. apply Rle_trans with (rnd 4); [apply rnd_le; lra|]. apply Req_le. exact (rnd_int 4 ltac:(lia)).
Qed.
Lemma p_ks_safe ks_test n (d : double) : (1 <= n <= 15000000)%Z -> (ks_test = 2%N -> (n <= 23169)%Z) ->
  is_finite d = true -> 0 <= B2R d <= 1 -> exists p, p_ks_new D ks_test n d = Ok p.
Proof.
  intros N K F R. unfold p_ks_new. cbv zeta. destruct (negb (ks_test =? 2)%N && _) eqn:C; [eexists; reflexivity|].
  change (ntrunc D (nmul D (nint D n) d)) with (dtrunc (dmul (d_of_Z n) d)). destruct (prod_val n d) as (-> & P); auto; [lia|].
  set (t := Zfloor (rnd (IZR n * B2R d))). assert (NR : 1 <= IZR n <= 15000000) by (split; apply IZR_le; lia).
  assert (ri : forall z, (Z.abs z <= 2 ^ 53)%Z -> rnd (IZR z) = IZR z) by (intros; now apply rnd_int).
  assert (T : (0 <= t <= 23169)%Z).
  { destruct (Z_le_gt_dec n 23169) as [S|S].
    - assert (0 <= t <= n)%Z; [|lia]. apply floor_le; [exact P|]. apply Rle_trans with (rnd (IZR n)); [apply rnd_le; clear - R NR; nra|rewrite ri by lia; lra].
    - apply floor_le; [exact P|]. destruct (Rle_dec (IZR n * B2R d) 23169) as [X|X].
      { rewrite <- (ri 23169%Z) by lia. now apply rnd_le. }
      exfalso. apply Rnot_le_lt in X. assert (Kn : (ks_test =? 2)%N = false) by (destruct (N.eqb_spec ks_test 2); auto; specialize (K e); lia).
      rewrite Kn in C. cbn [negb andb] in C. apply orb_false_iff in C. destruct C as (_ & C). apply andb_false_iff in C.
      destruct C as [C|C]; [|destruct (Z.gtb_spec n 99); [discriminate|lia]].
      change (ngt D (nmul D (nmul D d d) (nint D n)) (nlit D 376 100)) with (dlt (d_lit 376 100) (dmul (dmul d d) (d_of_Z n))) in C.
      destruct (d_of_Z_val n) as (Fn & Vn & _); [lia|].
      assert (DB : 1 / 1000 <= B2R d) by nra.
      assert (DD : 1 / 1000000 <= B2R d * B2R d <= 1) by nra.
      destruct (dmul_val d d F F) as (F1 & V1); [apply moderate_le; lra|].
      assert (small : forall b, (-1000 <= b)%Z -> bpow radix2 (-1000) <= bpow radix2 b) by (intros; now apply bpow_le).
      assert (Q1 : B2R d * B2R d * (1 - / 9007199254740992) <= B2R (dmul d d) <= 1).
      { rewrite V1. split; [|rewrite <- rnd_one; apply rnd_le; lra]. apply (rnd_rel (B2R d * B2R d)).
        apply Rle_trans with (bpow radix2 (-20)); [apply small; lia|]. change (bpow radix2 (-20)) with (/ 1048576). lra. }
      destruct (dmul_val (dmul d d) (d_of_Z n) F1 Fn) as (F2 & V2); [apply moderate_le; rewrite Vn; nra|]. rewrite Vn in V2.
      assert (Q3 : 35 <= B2R d * B2R d * IZR n).
      { assert (XX : 23169 * 23169 <= (IZR n * B2R d) * (IZR n * B2R d)) by nra.
        assert (XY : (IZR n * B2R d) * (IZR n * B2R d) = (B2R d * B2R d * IZR n) * IZR n) by ring.
        apply Rnot_lt_le. intro Lt. assert ((B2R d * B2R d * IZR n) * IZR n <= 35 * 15000000) by nra. lra. }
      assert (Q2 : 34 <= B2R (dmul (dmul d d) (d_of_Z n))).
      { rewrite V2. rewrite <- (ri 34%Z) by lia. apply rnd_le. nra. }
      pose proof lit_376 as LF.
      apply lt_false in C; [lra|apply LF|exact F2]. }
  change (2 ^ 31)%Z with 2147483648%Z. destruct (Z.ltb_spec t (Z.opp 2147483648)); [lia|].
  destruct (Z.ltb_spec (2147483648 - 1) (t + 1)); [lia|]. cbn [orb].
  destruct (Z.ltb_spec (2 * (t + 1) - 1) 1); [lia|]. destruct (Z.leb_spec 2147483648 ((2 * (t + 1) - 1) * (2 * (t + 1) - 1))); [nia|]. cbn [orb].
  apply matrix_part; auto.
Qed.

(** C101: with the default setting, or with -k 1 and at most fifteen million
    p-values, or with at most 23169 p-values, the test ends and returns a number
    without undefined behaviour. *)
Theorem C101_safe : forall srt ks_test (pv : list double), sorts srt -> Forall pvalue_ok pv ->
  (2 <= Z.of_nat (length pv) <= 2147483647)%Z ->
  (ks_test = 0%N \/ ks_test <> 2%N /\ (Z.of_nat (length pv) <= 15000000)%Z \/ (Z.of_nat (length pv) <= 23169)%Z) ->
  exists p, verdict (kstest D srt ks_test pv (Z.of_nat (length pv))) = Ok p.
Proof.
  intros srt ks pv S F L K. destruct (C97_bounds dpow dexp srt ks pv S F L) as (d & Fd & Rd & -> & _). unfold from_dmax.
  destruct ((ks =? 0)%N && (Z.of_nat (length pv) >? 4999)%Z) eqn:C; [eexists; reflexivity|].
  assert (B : (1 <= Z.of_nat (length pv) <= 15000000)%Z).
  { destruct K as [K|[K|K]]; try lia. }
  apply p_ks_safe; auto. intro E. destruct K as [K|[K|K]]; try lia.
Qed.

(** That it is so for every number of p-values is false: with -k 2 and 23200 or
    more p-values that are all 0, the dimension of the matrix overflows. *)
Theorem C101_refuted : forall srt n, sorts srt -> (23200 <= Z.of_nat n <= 2147483647)%Z ->
  Forall pvalue_ok (repeat dzero n) /\ exists msg, kstest D srt 2 (repeat dzero n) (Z.of_nat n) = UB msg.
Proof.
  intros srt n S N.
  assert (F : Forall pvalue_ok (repeat dzero n)).
  { apply Forall_forall. intros p I. apply repeat_spec in I. subst. split; [reflexivity|]. cbn. lra. }
  assert (Ff : Forall (fun p => is_finite p = true) (repeat dzero n)) by (eapply Forall_impl; [|exact F]; intros a A; apply A).
  split; [exact F|]. destruct (S _ Ff) as (P & _). pose proof (perm_repeat _ _ _ P) as E.
  unfold kstest. destruct (Z.ltb_spec (Z.of_nat n) 1); [lia|]. destruct (Z.eqb_spec (Z.of_nat n) 1); [lia|].
  change (num D) with double. rewrite repeat_length, Z.ltb_irrefl, Nat2Z.id.
  replace (firstn n (repeat dzero n)) with (repeat dzero n) by (rewrite <- (repeat_length dzero n) at 2; now rewrite firstn_all).
  cbv zeta. rewrite E. cbn [N.eqb andb].
  destruct (dmax_ok dpow dexp (repeat dzero n) 1 (Z.of_nat n) dzero 0) as (Fd & Rd & Ed); auto; try lia.
  - rewrite repeat_length. lia.
  - cbn. lra.
  - cbn. rewrite Rminus_0_r, Rabs_R0. lra.
  - change (nint D 0) with dzero. set (d := dmax_loop D 1 (Z.of_nat n) (repeat dzero n) dzero) in *.
    assert (NR : 23200 <= IZR (Z.of_nat n) <= 2147483647) by (split; apply IZR_le; lia).
    assert (LB : IZR (Z.of_nat n) / (IZR (Z.of_nat n) + 1) <= largest_from 1 (IZR (Z.of_nat n)) (map (@B2R 53 1024) (repeat dzero n)) 0).
    { pose proof (largest_each (map (@B2R 53 1024) (repeat dzero n)) 1 (IZR (Z.of_nat n)) 0 (n - 1)) as LE.
      rewrite map_length, repeat_length in LE. specialize (LE ltac:(lia)).
      assert (N0 : nth (n - 1) (map (@B2R 53 1024) (repeat dzero n)) 0 = 0).
      { assert (I : In (nth (n - 1) (map (@B2R 53 1024) (repeat dzero n)) 0) (map (@B2R 53 1024) (repeat dzero n))) by (apply nth_In; rewrite map_length, repeat_length; lia).
        apply in_map_iff in I. destruct I as (x & <- & I). apply repeat_spec in I. subst. reflexivity. }
      rewrite N0 in LE. replace (1 + INR (n - 1)) with (IZR (Z.of_nat n)) in LE by (rewrite INR_IZR_INZ, <- (plus_IZR 1); f_equal; lia).
      rewrite Rabs_left1 in LE; [lra|].
      assert (0 < IZR (Z.of_nat n) / (IZR (Z.of_nat n) + 1)) by (apply Rdiv_lt_0_compat; lra). lra. }
    apply Rabs_le_inv in Ed. change (IZR 1) with 1 in Ed.
    assert (QB : IZR (Z.of_nat n) / (IZR (Z.of_nat n) + 1) = 1 - / (IZR (Z.of_nat n) + 1)) by (field; lra).
    assert (IB : / (IZR (Z.of_nat n) + 1) * IZR (Z.of_nat n) <= 1).
    { apply Rmult_le_reg_l with (IZR (Z.of_nat n) + 1); [lra|]. rewrite <- Rmult_assoc, Rinv_r by lra. lra. }
    assert (IP : 0 < / (IZR (Z.of_nat n) + 1)) by (apply Rinv_0_lt_compat; lra).
    assert (PB : 23198 <= IZR (Z.of_nat n) * B2R d) by nra.
    unfold p_ks_new. cbv zeta. cbn [N.eqb negb andb].
    change (ntrunc D (nmul D (nint D (Z.of_nat n)) d)) with (dtrunc (dmul (d_of_Z (Z.of_nat n)) d)).
    destruct (prod_val (Z.of_nat n) d) as (-> & _); auto; [lia|]. set (t := Zfloor _).
    assert (T : (23198 <= t)%Z).
    { apply Zfloor_lub. rewrite <- (rnd_int 23198%Z) by lia. now apply rnd_le. }
    clearbody t. clear - T. destruct ((t <? - 2 ^ 31) || (2 ^ 31 - 1 <? t + 1))%Z eqn:C; [eexists; reflexivity|].
    destruct (Z.ltb_spec (2 * (t + 1) - 1) 1); [lia|]. destruct (Z.leb_spec (2 ^ 31) ((2 * (t + 1) - 1) * (2 * (t + 1) - 1))); [|exfalso; nia].
    eexists. reflexivity.
Qed.
End Ks.

(** ** Kuiper *)
Section Kuiper.
Variable dexp : double -> double.
Hypothesis exp0 : forall z, is_zero z -> dexp z = DoubleModel.done.
Lemma deq_fin (x y : double) : is_finite x = true -> is_finite y = true -> B2R x <> B2R y -> deq x y = false.
Proof.
  intros Fx Fy N. destruct (deq x y) eqn:E; [|reflexivity]. exfalso. apply N.
  apply deq_val in E; try now apply finite_nan. now rewrite !val_finite in E by assumption.
Qed.
Lemma kuiper_q_zero xsq : is_zero xsq -> forall fuel m j (q q_last : double), (0 <= j)%Z -> (j + Z.of_nat fuel < 2 ^ 53)%Z ->
  is_finite q = true -> is_finite q_last = true -> B2R q = IZR (- j) -> B2R q <> B2R q_last ->
  kuiper_q fuel dexp m xsq q q_last = OutOfFuel.
Proof.
  intro Z0. induction fuel as [|fuel IH]; intros m j q ql J B Fq Fl V N; [reflexivity|]. cbn [kuiper_q].
  rewrite deq_fin by assumption. cbv zeta. set (msq := d_of_Z (Z.of_N _)).
  assert (Fm : is_finite msq = true /\ 0 <= B2R msq <= 4294967296).
  { unfold msq, mul32, w32. pose proof (N.mod_lt (add32 m 1 * add32 m 1) (2 ^ 32) ltac:(discriminate)) as L.
    destruct (d_of_Z_val (Z.of_N ((add32 m 1 * add32 m 1) mod 2 ^ 32))) as (F & Vm & _); [change (2 ^ 32)%N with 4294967296%N in *; lia|].
    split; [exact F|]. rewrite Vm. change (2 ^ 32)%N with 4294967296%N in *. split; apply IZR_le; lia. }
  destruct Fm as (Fm & Rm).
  assert (T1 : is_zero (dmul (dmul (d_of_Z 4) msq) xsq)).
  { apply zero_mul_r; [|exact Z0]. destruct (d_of_Z_val 4) as (F4 & V4 & _); [lia|]. apply dmul_val; auto. apply moderate_le. rewrite V4. lra. }
  assert (T2 : is_zero (dmul (dmul (dopp (d_of_Z 2)) msq) xsq)).
  { apply zero_mul_r; [|exact Z0]. destruct (d_of_Z_val 2) as (F2 & V2 & _); [lia|]. apply dmul_val; auto.
    apply moderate_le. unfold dopp. rewrite B2R_Bopp, V2. lra. }
  rewrite (exp0 _ T2). destruct T1 as (s & ->).
  assert (E1 : dmul (dsub (B754_zero s) DoubleModel.done) DoubleModel.done = dminus1) by (apply B2SF_inj; destruct s; vm_compute; reflexivity).
  rewrite E1.
  assert (M1 : B2R dminus1 = -1) by (unfold dminus1; cbn; unfold F2R; cbn; lra).
  destruct (dadd_val q dminus1 Fq eq_refl) as (Fs & Vs).
  { apply moderate_le. rewrite V, M1. rewrite <- (plus_IZR (- j) (-1)). split; apply IZR_le; lia. }
  rewrite V, M1, <- (plus_IZR (- j) (-1)), rnd_int in Vs by lia.
  apply (IH _ (j + 1)%Z); auto; try lia.
  - rewrite Vs. f_equal. lia.
  - rewrite Vs, V. apply IZR_neq. lia.
Qed.
(** p-values exactly at i/n, i = 0, ..., n-1 *)
Definition grid (n : nat) : list double := map (fun i => ddiv (d_of_Z (Z.of_nat i)) (d_of_Z (Z.of_nat n))) (seq 0 n).
Lemma grid_val n i : (i < n)%nat -> (Z.of_nat n <= 2147483647)%Z ->
  is_finite (ddiv (d_of_Z (Z.of_nat i)) (d_of_Z (Z.of_nat n))) = true /\
  B2R (ddiv (d_of_Z (Z.of_nat i)) (d_of_Z (Z.of_nat n))) = rnd (IZR (Z.of_nat i) / IZR (Z.of_nat n)) /\
  0 <= IZR (Z.of_nat i) / IZR (Z.of_nat n) <= 1.
Proof.
  intros I N. destruct (d_of_Z_val (Z.of_nat i)) as (Fi & Vi & _); [lia|]. destruct (d_of_Z_val (Z.of_nat n)) as (Fn & Vn & _); [lia|].
  assert (Ri : 0 <= IZR (Z.of_nat i) <= IZR (Z.of_nat n)) by (split; apply IZR_le; lia). assert (Rn : 1 <= IZR (Z.of_nat n)) by (apply IZR_le; lia).
  assert (Q : 0 <= IZR (Z.of_nat i) / IZR (Z.of_nat n) <= 1).
  { split; [apply Rmult_le_pos; [lra|]; apply Rlt_le, Rinv_0_lt_compat; lra|].
    apply Rmult_le_reg_r with (IZR (Z.of_nat n)); [lra|]. unfold Rdiv. rewrite Rmult_assoc, Rinv_l by lra. lra. }
  destruct (ddiv_mod (d_of_Z (Z.of_nat i)) (d_of_Z (Z.of_nat n)) Fi) as (F & V); [rewrite Vn; lra|apply moderate_le; rewrite Vi, Vn; lra|].
  split; [exact F|]. split; [now rewrite V, Vi, Vn|exact Q].
Qed.
Lemma grid_ok n : (Z.of_nat n <= 2147483647)%Z -> Forall pvalue_ok (grid n).
Proof.
  intro N. apply Forall_forall. intros p I. apply in_map_iff in I. destruct I as (i & <- & I). apply in_seq in I.
  destruct (grid_val n i) as (F & V & Q); try lia. split; [exact F|]. rewrite V. split; [rewrite <- rnd_zero; apply rnd_le; lra|].
  apply Rle_trans with (rnd 1); [apply rnd_le; lra|rewrite rnd_one; lra].
Qed.
Lemma v_quiet dpow count : forall pv i, (forall k, (k < length pv)%nat -> is_zero (dsub (nth k pv dzero) (ddiv (d_of_Z (i + Z.of_nat k)) (d_of_Z count)))) ->
  v_loop (doubles dpow dexp) i count pv dzero dzero = (dzero, dzero).
Proof.
  clear exp0. induction pv as [|p pv IH]; intros i H; [reflexivity|]. cbn [v_loop].
  pose proof (H 0%nat ltac:(cbn; lia)) as H0. cbn [nth] in H0. rewrite Z.add_0_r in H0.
  change (nsub (doubles dpow dexp) p (ndiv (doubles dpow dexp) (nint (doubles dpow dexp) i) (nint (doubles dpow dexp) count))) with (dsub p (ddiv (d_of_Z i) (d_of_Z count))).
  destruct H0 as (s & ->).
  assert (G : ngt (doubles dpow dexp) (B754_zero s) dzero = false) by (destruct s; reflexivity).
  assert (G' : ngt (doubles dpow dexp) dzero (B754_zero s) = false) by (destruct s; reflexivity).
  rewrite G, G'. apply IH. intros k K. specialize (H (S k) ltac:(cbn; lia)). cbn [nth] in H.
  replace (i + 1 + Z.of_nat k)%Z with (i + Z.of_nat (S k))%Z by lia. exact H.
Qed.
(** C102: that the Kuiper test (-k 3) ends for all p-values is false: for
    0, 1/n, ..., (n-1)/n it runs for more than 2^53 rounds.  The sort leaves
    sorted arrays alone. *)
Theorem C102_refuted : forall srt n fuel, srt (grid n) = grid n -> (2 <= Z.of_nat n <= 2147483647)%Z -> (Z.of_nat fuel < 2 ^ 53)%Z ->
  Forall pvalue_ok (grid n) /\ kstest_kuiper fuel dexp srt (grid n) (Z.of_nat n) = OutOfFuel.
Proof.
  intros srt n fuel S N Fu. split; [apply grid_ok; lia|].
  assert (L : length (grid n) = n) by (unfold grid; now rewrite map_length, seq_length).
  unfold kstest_kuiper. destruct (Z.eqb_spec (Z.of_nat n) 1); [lia|]. destruct (Z.ltb_spec (Z.of_nat n) 0); [lia|].
  rewrite L, Z.ltb_irrefl. cbn [orb]. rewrite Nat2Z.id.
  replace (firstn n (grid n)) with (grid n) by (rewrite <- L at 2; now rewrite firstn_all). cbv zeta. rewrite S.
  rewrite v_quiet.
  - change (dadd (dabs dzero) (dabs dzero)) with dzero. unfold q_ks_kuiper. cbv zeta.
    set (x := dmul _ dzero).
    assert (X : is_zero x).
    { apply zero_mul_r; [|exists false; reflexivity].
      destruct (lit_unit (fun _ _ => dzero) 155 1000) as (F1 & R1); try lia. destruct (lit_unit (fun _ _ => dzero) 24 100) as (F2 & R2); try lia. apply factor_fin; auto. }
    rewrite (kuiper_q_zero (dmul x x) (zero_mul_r x (KsLemmas5.zero_fin x X) x X) fuel 0%N 0%Z); auto; try lia; try reflexivity.
    cbn. unfold dminus1. cbn. unfold F2R. cbn. lra.
  - intros k K. rewrite L in K. unfold grid.
    rewrite (nth_indep _ dzero (ddiv (d_of_Z (Z.of_nat 0)) (d_of_Z (Z.of_nat n)))) by now rewrite map_length, seq_length.
    rewrite (map_nth (fun i => ddiv (d_of_Z (Z.of_nat i)) (d_of_Z (Z.of_nat n)))). rewrite seq_nth by exact K. rewrite Z.add_0_l, Nat.add_0_l.
    apply sub_self. apply grid_val; lia.
Qed.
End Kuiper.
Example C102_ex : kstest_kuiper 1000 exp_ex (fun l => l) (grid 10) 10 = OutOfFuel.
Proof. apply (C102_refuted exp_ex (fun z _ => eq_refl) (fun l => l) 10 1000); [reflexivity|lia|reflexivity]. Qed.

(** ** The promise about the sort can be met *)
Fixpoint dinsert (x : double) (l : list double) : list double :=
  match l with [] => [x] | y :: l' => if dlt y x then y :: dinsert x l' else x :: l end.
Definition dsort (l : list double) : list double := fold_right dinsert [] l.
Lemma dinsert_perm x l : Permutation (x :: l) (dinsert x l).
Proof.
  induction l as [|y l IH]; cbn [dinsert]; [reflexivity|]. destruct (dlt y x); [|reflexivity].
  transitivity (y :: x :: l); [constructor|now constructor].
Qed.
Lemma dinsert_sorted x l : is_finite x = true -> Forall (fun p => is_finite p = true) l ->
  StronglySorted (fun a b : double => B2R a <= B2R b) l -> StronglySorted (fun a b : double => B2R a <= B2R b) (dinsert x l).
Proof.
  intros Fx F S. induction S as [|y l S IH H]; cbn [dinsert]; [repeat constructor|]. inversion F; subst.
  destruct (dlt y x) eqn:C.
  - apply lt_true in C; auto. constructor; [now apply IH|]. eapply Permutation_Forall; [apply dinsert_perm|]. constructor; [lra|exact H].
  - apply lt_false in C; auto. constructor; [now constructor|]. constructor; [exact C|].
    eapply Forall_impl; [|exact H]. intros a A. cbn beta in A. lra.
Qed.
Lemma dsort_sorts : sorts dsort.
Proof.
  intros l F. assert (P : Permutation l (dsort l)).
  { clear F. induction l as [|x l IH]; [reflexivity|]. cbn [dsort fold_right]. transitivity (x :: dsort l); [now constructor|apply dinsert_perm]. }
  split; [exact P|]. clear P. induction F as [|x l Fx F IH]; [constructor|]. cbn [dsort fold_right]. apply dinsert_sorted; auto.
  eapply Permutation_Forall; [|exact F]. clear. induction l as [|x l IH]; [reflexivity|]. cbn [fold_right].
  transitivity (x :: fold_right dinsert [] l); [now constructor|apply dinsert_perm].
Qed.
Example C96_ex : verdict (kstest (doubles pow_ex exp_ex) dsort 1 quarters 3) = Ok DoubleModel.done.
Proof.
  rewrite (proj1 (proj2 (C97_refuted pow_ex exp_ex dsort 1 dsort_sorts))). apply p_zero; try apply C99_ex. lia.
Qed.
Example C101_ex : exists p, verdict (kstest (doubles pow_ex exp_ex) dsort 2 quarters 3) = Ok p.
Proof. eexists. rewrite (proj1 (proj2 (C97_refuted pow_ex exp_ex dsort 2 dsort_sorts))). apply p_zero; try apply C99_ex. lia. Qed.
Print Assumptions C101_safe.
Print Assumptions C101_refuted.
Print Assumptions C102_refuted.
