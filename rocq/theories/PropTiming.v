(** Property C151: the speed shown. *)
From Coq Require Import Reals Lra Lia.
From Flocq Require Import Core IEEE754.BinarySingleNaN.
From Verif Require Import Base BaseLemmas DoubleModel KsModel KsReals TimingModel TimingSpec.
Open Scope N_scope.

Lemma total_real passes : forall t, fold_left (fun t p => nadd reals t (delta_timing reals (fst p) (snd p))) passes t
  = (t + elapsed passes)%R.
Proof.
  change (KsModel.num reals) with R. induction passes as [|p l IH]; intro t; cbn [fold_left elapsed].
  - ring.
  - rewrite IH. destruct p as ((a, b), (c, d)). unfold delta_timing, moment. cbn [fst snd nadd nmul nint nlit reals]. rewrite !minus_IZR. lra.
Qed.

Lemma shown ps ts clock : ps < 2 ^ 31 -> ts < 2 ^ 31 ->
  let e := elapsed (map clock (seq 0 (N.to_nat ps))) in
  let m := IZR (Z.of_N (mul32 ps ts)) in
  rgb_timing reals ps ts clock = Ok (e / m * 1000000000, 1 / (e / m))%R.
Proof.
  intros P T e m. unfold rgb_timing.
  replace (2 ^ 31 <=? ps) with false by lia. replace (2 ^ 31 <=? ts) with false by lia.
  rewrite andb_false_r. cbn [orb]. unfold total_time. cbn [KsModel.num reals] in *.
  rewrite total_real. cbn [nint nmul ndiv reals]. rewrite Rplus_0_l. reflexivity.
Qed.

Section Real.
Open Scope R_scope.
(** As long as fewer than 2^32 numbers are drawn, the speed shown is the number
    of draws by the time they took. *)
Theorem C151_rate : forall ps ts clock,
  (1 <= ps)%N -> (1 <= ts)%N -> (ps < 2 ^ 31)%N -> (ts < 2 ^ 31)%N -> (ps * ts < 2 ^ 32)%N ->
  let e := elapsed (map clock (seq 0 (N.to_nat ps))) in
  0 < e ->
  exists nsec rate, rgb_timing reals ps ts clock = Ok (nsec, rate) /\
    rate = IZR (Z.of_N (ps * ts)) / e /\ nsec * IZR (Z.of_N (ps * ts)) = e * 10 ^ 9.
Proof.
  intros ps ts clock P1 T1 P T M e E. do 2 eexists. split; [apply shown; assumption|].
  fold e. unfold mul32. rewrite w32_small by exact M.
  assert (Z: 0 < IZR (Z.of_N (ps * ts))) by (apply IZR_lt; nia).
  split; match goal with |- ?a = ?b => change (@eq R a b) end; field; lra.
Qed.

(** From 2^32 draws on the count wraps and the speed shown is too low: it is
    that of the draws modulo 2^32. *)
Theorem C151_wrapped : forall ps ts clock,
  (ps < 2 ^ 31)%N -> (ts < 2 ^ 31)%N -> (2 ^ 32 <= ps * ts)%N -> ((ps * ts) mod 2 ^ 32 <> 0)%N ->
  let e := elapsed (map clock (seq 0 (N.to_nat ps))) in
  0 < e ->
  exists nsec rate, rgb_timing reals ps ts clock = Ok (nsec, rate) /\
    rate = IZR (Z.of_N ((ps * ts) mod 2 ^ 32)) / e /\ rate < IZR (Z.of_N (ps * ts)) / e.
Proof.
  intros ps ts clock P T M Z e E. do 2 eexists. split; [apply shown; assumption|].
  fold e. unfold mul32, w32.
  assert (Q: 0 < IZR (Z.of_N ((ps * ts) mod 2 ^ 32))) by (apply IZR_lt; lia).
  assert (L: IZR (Z.of_N ((ps * ts) mod 2 ^ 32)) < IZR (Z.of_N (ps * ts))).
  { apply IZR_lt. pose proof (N.mod_lt (ps * ts) (2 ^ 32) ltac:(lia)). lia. }
  assert (X: 1 / (e / IZR (Z.of_N ((ps * ts) mod 2 ^ 32))) = IZR (Z.of_N ((ps * ts) mod 2 ^ 32)) / e) by (field; lra).
  split; [exact X|]. rewrite X. apply Rmult_lt_compat_r; [apply Rinv_0_lt_compat; exact E|exact L].
Qed.

(** 50000 passes of 100000 draws, one second each pass: 100000 draws a second,
    shown as 14100.7. *)
Theorem C151_refuted : exists ps ts clock,
  (forall i, moment (snd (clock i)) - moment (fst (clock i)) = 1) /\
  exists nsec rate, rgb_timing reals ps ts clock = Ok (nsec, rate) /\
    rate * 7 < IZR (Z.of_N ts).
Proof.
  pose (clock := fun i : nat => ((Z.of_nat i, 0%Z), ((Z.of_nat i + 1)%Z, 0%Z)) : reading * reading).
  exists 50000%N, 100000%N, clock.
  assert (C: forall i, moment (snd (clock i)) - moment (fst (clock i)) = 1).
  { intro i. unfold clock, moment. cbn [fst snd]. rewrite plus_IZR. lra. }
  split; [exact C|]. do 2 eexists. split; [apply shown; reflexivity|].
  assert (EL: forall k a, elapsed (map clock (seq a k)) = INR k).
  { induction k as [|k IH]; intro a; [reflexivity|]. cbn [seq map elapsed]. rewrite IH, C, S_INR. ring. }
  rewrite EL, INR_IZR_INZ, N_nat_Z. change (Z.of_N 50000) with 50000%Z.
  change (Z.of_N (mul32 50000 100000)) with 705032704%Z. change (Z.of_N 100000) with 100000%Z.
  assert (F: 1 / (50000 / 705032704) = 705032704 / 50000) by (field; split; lra).
  rewrite F. lra.
Qed.
End Real.

(** When the number of draws is a multiple of 2^32 the doubles show 0 draws a
    second, whatever positive time they took. *)
Theorem C151_zero_refuted : forall dpow dexp ps ts clock,
  let A := doubles dpow dexp in
  ps < 2 ^ 31 -> ts < 2 ^ 31 -> (ps * ts) mod 2 ^ 32 = 0 ->
  is_finite_strict (total_time A (map clock (seq 0 (N.to_nat ps)))) = true ->
  Bsign (total_time A (map clock (seq 0 (N.to_nat ps)))) = false ->
  exists nsec, rgb_timing A ps ts clock = Ok (nsec, dzero).
Proof.
  intros dpow dexp ps ts clock A P T M F S. unfold rgb_timing.
  replace (2 ^ 31 <=? ps) with false by lia. replace (2 ^ 31 <=? ts) with false by lia.
  rewrite andb_false_r. cbn [orb]. unfold mul32, w32. rewrite M.
  set (t := total_time _ _) in *. clearbody t. change (KsModel.num A) with DoubleModel.double in *.
  destruct t as [s|s| |s m e B]; try discriminate. cbn [Bsign] in S. subst s.
  eexists. reflexivity.
Qed.
Example C151_zero_ex : forall dpow dexp,
  let A := doubles dpow dexp in
  let clock := fun _ : nat => ((5, 999000), (6, 1000))%Z in
  (4 * 2 ^ 30) mod 2 ^ 32 = 0 /\
  is_finite_strict (total_time A (map clock (seq 0 (N.to_nat 4)))) = true /\
  Bsign (total_time A (map clock (seq 0 (N.to_nat 4)))) = false.
Proof. intros. repeat split; vm_compute; reflexivity. Qed.

Theorem C151_overflow_refuted : forall A ps clock ts, 1 <= ps -> 2 ^ 31 <= ts ->
  exists why, rgb_timing A ps ts clock = UB why.
Proof.
  intros A ps clock ts P T. unfold rgb_timing. replace (2 ^ 31 <=? ts) with true by lia.
  replace (0 <? ps) with true by lia. cbn [andb]. rewrite orb_true_r. eexists. reflexivity.
Qed.

(** The default, 10 passes of a million draws, here of 20 milliseconds each. *)
Example C151_ex : exists nsec rate,
  rgb_timing reals 10 1000000 (fun i => ((5, 990000), (6, 10000))%Z) = Ok (nsec, rate) /\
  (rate = 50000000 /\ nsec = 20)%R.
Proof.
  do 2 eexists. split; [apply shown; reflexivity|].
  change (Z.of_N (mul32 10 1000000)) with 10000000%Z.
  change (N.to_nat 10) with 10%nat. cbn [seq map elapsed]. unfold moment. cbn [fst snd].
  split; lra.
Qed.

Print Assumptions C151_rate.
Print Assumptions C151_wrapped.
Print Assumptions C151_refuted.
Print Assumptions C151_zero_refuted.
Print Assumptions C151_overflow_refuted.
