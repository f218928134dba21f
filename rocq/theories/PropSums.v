(** C109-C110: the overlapping-sums test. *)
From Coq Require Import ZArith Reals Lra Lia List Bool.
From Flocq Require Import Core IEEE754.BinarySingleNaN.
From Verif Require Import SumsModel SumsSpec SumsLemmas KsSpec KsReals KsLemmas3 BaseLemmas PropKs3 PropKs4.
Import ListNotations.
Open Scope R_scope.

Lemma raw_step m t (u : nat -> R) : rsum m (fun i => u (t + i)%nat) - u t + u (t + m)%nat = rsum m (fun i => u (S t + i)%nat).
Proof.
  induction m as [|m IH]; cbn [rsum]; [rewrite Nat.add_0_r; ring|]. rewrite <- IH. replace (S t + m)%nat with (t + S m)%nat by lia. ring.
Qed.
Section Real.
Variables (Phi : R -> R) (u : nat -> R).
Lemma first_ok m : (1 <= m)%nat -> exists rl y, sums_first reals u m = Ok (rl, y) /\ length rl = m /\ length y = m /\
  (forall t, (t < m)%nat -> nth t rl 0 = u t) /\ nth 0 y 0 = rsum m u.
Proof.
  intro M. unfold sums_first. set (f := fun t s => _).
  destruct (for_inv (fun i (s : list R * list R) => length (fst s) = m /\ length (snd s) = m /\ (forall t, (Z.of_nat t < i)%Z -> nth t (fst s) 0 = u t) /\ nth 0 (snd s) 0 = rsum (Z.to_nat i) u)
    f m 0 (repeat 0 m, repeat 0 m)) as ((rl, y) & E & H1 & H2 & H3 & H4).
  - cbn [fst snd]. rewrite !repeat_length. repeat split; auto; [intros t T; lia|]. destruct m; reflexivity.
  - intros j (rl, y) J (H1 & H2 & H3 & H4). cbn [fst snd] in *. unfold f.
    change (num reals) with R. change (nadd reals) with Rplus.
    rewrite put_ok by lia. cbn [bind]. rewrite (get_ok 0) by (rewrite set_nth_length; lia). cbn [bind].
    rewrite (get_ok 0) by lia. cbn [bind]. rewrite put_ok by lia. cbn [bind].
    eexists. split; [reflexivity|]. cbn [fst snd]. rewrite !set_nth_length. split; [exact H1|]. split; [exact H2|].
    rewrite nth_set_nth_eq by lia. split.
    + intros t T. destruct (Nat.eq_dec t (Z.to_nat j)) as [->|Ne]; [rewrite nth_set_nth_eq by lia; reflexivity|]. rewrite nth_set_nth_ne by auto. apply H3. lia.
    + change (Z.to_nat 0) with 0%nat in *. rewrite nth_set_nth_eq by lia. change (nth 0 y 0 + u (Z.to_nat j) = rsum (Z.to_nat (j + 1)) u). rewrite H4. replace (Z.to_nat (j + 1)) with (Datatypes.S (Z.to_nat j)) by lia. reflexivity.
  - exists rl, y. cbn [fst snd] in *. split; [exact E|]. split; [exact H1|]. split; [exact H2|]. split; [intros t T; apply H3; lia|]. refine (eq_trans H4 _). f_equal. lia.
Qed.
(** C109: the sums are those of [m] consecutive deviates, starting at the first,
    second, ..., m-th one, shifted and scaled to mean 0 and variance m. *)
Theorem C109_overlapping : forall m, (1 <= m)%nat -> sums_y reals u m = Ok (map (fun t => overlapping m t u) (seq 0 m)).
Proof.
  intros m M. unfold sums_y. cbv zeta. destruct (first_ok m M) as (rl & y & -> & L1 & L2 & Hr & H0). cbn [bind].
  set (conv := fun raw => nmul reals (nsub reals raw (nmul reals (nlit reals 1 2) (nint reals (Z.of_nat m)))) (nsqrt reals (nint reals 12))).
  assert (CV : forall t, conv (rsum m (fun i => u (t + i)%nat)) = overlapping m t u).
  { intro t. unfold conv, overlapping. cbn [reals nmul nsub nlit nint nsqrt num]. rewrite <- INR_IZR_INZ. f_equal. f_equal. field. }
  match goal with |- context [for_ (m - 1) 1 ?f y] => destruct (for_inv (fun i (y : list R) => length y = m /\ (forall t, (Z.of_nat t < i - 1)%Z -> nth t y 0 = overlapping m t u) /\
      nth (Z.to_nat (i - 1)) y 0 = rsum m (fun k => u (Z.to_nat (i - 1) + k)%nat)) f (m - 1)%nat 1%Z y) as (y' & E & H1 & H2 & H3) end.
  - split; [exact L2|]. split; [intros t T; lia|]. exact H0.
  - intros j z J (G1 & G2 & G3). change (num reals) with R in *. rewrite (get_ok 0) by lia. cbn [bind]. rewrite (get_ok 0) by lia. cbn [bind].
    rewrite put_ok by lia. cbn [bind]. rewrite put_ok by (rewrite set_nth_length; lia). eexists. split; [reflexivity|]. rewrite !set_nth_length. split; [exact G1|].
    change (num reals) with R in *. replace (j + 1 - 1)%Z with j by lia. split.
    + intros t T. destruct (Nat.eq_dec t (Z.to_nat (j - 1))) as [->|Ne].
      * rewrite nth_set_nth_eq by (rewrite set_nth_length; lia). rewrite G3. exact (CV (Z.to_nat (j - 1))).
      * rewrite !nth_set_nth_ne by lia. apply G2. lia.
    + rewrite nth_set_nth_ne by lia. rewrite nth_set_nth_eq by lia. rewrite G3, Hr by lia.
      replace (m + Z.to_nat j - 1)%nat with (Z.to_nat (j - 1) + m)%nat by lia. change (nadd reals) with Rplus. change (nsub reals) with Rminus. rewrite raw_step.
      apply rsum_ext. intros k _. f_equal. lia.
  - change (num reals) with R in *. rewrite E. cbn [bind]. replace (1 + Z.of_nat (m - 1) - 1)%Z with (Z.of_nat m - 1)%Z in * by lia.
    rewrite (get_ok 0) by lia. cbn [bind]. rewrite put_ok by lia. f_equal. apply nth_ext with 0 0; [now rewrite set_nth_length, map_length, seq_length|].
    intros t T. rewrite set_nth_length in T. set (g := fun t => overlapping m t u). rewrite nth_indep with (l := map g _) (d' := g O) by (rewrite map_length, seq_length; lia). rewrite map_nth, seq_nth by lia. cbn [Nat.add].
    destruct (Nat.eq_dec t (Z.to_nat (Z.of_nat m - 1))) as [->|Ne].
    + rewrite nth_set_nth_eq by lia. rewrite H3. apply CV.
    + rewrite nth_set_nth_ne by lia. apply H2. lia.
Qed.
(** what the t-th sum is turned into before the normal distribution is applied *)
Definition transformed (m t : nat) (u : nat -> R) : R := if (t <? 2)%nat then marsaglia m t u else dieharder_sums m t u.
Lemma sqrt_is x y : 0 <= y -> y * y = x -> sqrt x = y.
Proof. intros H <-. now apply sqrt_square. Qed.
Lemma third_form m t y2 y1 yt : (2 <= m)%nat -> (t < m)%nat -> let a := 2 * INR m + 1 - INR t in let b := 2 * a - 2 in
  y2 / sqrt (a * b) - y1 * sqrt ((a - 1) / (b + 2)) + yt * sqrt (a / b) = (y2 - (a - 1) * y1 + a * yt) / sqrt (2 * a * (a - 1)).
Proof.
  intros M T a b. pose proof (a_pos m t T) as A. fold a in A. assert (MR : 2 <= INR m) by (apply le_INR in M; exact M).
  assert (P : 0 < 2 * a * (a - 1)) by nra. pose proof (sqrt_lt_R0 _ P) as Q. pose proof (sqrt_sqrt _ (Rlt_le _ _ P)) as E.
  replace (a * b) with (2 * a * (a - 1)) by (unfold b; ring). set (q := sqrt (2 * a * (a - 1))) in *.
  rewrite (sqrt_is ((a - 1) / (b + 2)) ((a - 1) / q)).
  - rewrite (sqrt_is (a / b) (a / q)).
    + field. lra.
    + apply Rlt_le, Rdiv_lt_0_compat; lra.
    + transitivity (a * a / (q * q)); [field; lra|]. rewrite E. unfold b. field. split; lra.
  - apply Rlt_le, Rdiv_lt_0_compat; lra.
  - transitivity ((a - 1) * (a - 1) / (q * q)); [field; lra|]. rewrite E. unfold b. field. split; lra.
Qed.
Lemma second_form m y0 y1 : (2 <= m)%nat ->
  - (y0 / sqrt (1 * INR m)) * (INR m - 1) / sqrt (2 * INR m - 1) + y1 * sqrt (INR m / (2 * INR m - 1)) =
  (y1 - (INR m - 1) / INR m * y0) * sqrt (INR m / (2 * INR m - 1)).
Proof.
  intro M. assert (MR : 2 <= INR m) by (apply le_INR in M; exact M). rewrite Rmult_1_l.
  rewrite sqrt_div by lra. pose proof (sqrt_lt_R0 (INR m) ltac:(lra)). pose proof (sqrt_lt_R0 (2 * INR m - 1) ltac:(lra)).
  pose proof (sqrt_sqrt (INR m) ltac:(lra)) as E. set (q := sqrt (INR m)) in *. set (r := sqrt (2 * INR m - 1)) in *. clearbody q r. rewrite <- E in *. field. split; lra.
Qed.
Theorem C109_values : forall m, (2 <= m)%nat -> sums_x reals Phi u m = Ok (map (fun t => Phi (transformed m t u)) (seq 0 m)).
Proof.
  intros m M. unfold sums_x. cbv zeta. rewrite C109_overlapping by lia. cbn [bind].
  set (y := map (fun t => overlapping m t u) (seq 0 m)).
  assert (LY : length y = m) by (unfold y; now rewrite map_length, seq_length).
  assert (YT : forall t, (t < m)%nat -> nth t y 0 = overlapping m t u).
  { intros t T. unfold y. set (g := fun t => overlapping m t u). rewrite nth_indep with (d' := g O) by (rewrite map_length, seq_length; lia). now rewrite map_nth, seq_nth by lia. }
  clearbody y. change (num reals) with R in *. change (nint reals 0) with 0.
  rewrite (get_ok 0) by lia. cbn [bind]. rewrite put_ok by (rewrite repeat_length; lia). cbn [bind].
  rewrite (get_ok 0) by (rewrite set_nth_length, repeat_length; lia). cbn [bind]. rewrite (get_ok 0) by lia. cbn [bind].
  rewrite put_ok by (rewrite set_nth_length, repeat_length; lia). cbn [bind].
  rewrite (get_ok 0) by (rewrite !set_nth_length, repeat_length; lia). cbn [bind]. rewrite put_ok by (rewrite !set_nth_length, repeat_length; lia). cbn [bind].
  rewrite (get_ok 0) by (rewrite !set_nth_length, repeat_length; lia). cbn [bind]. rewrite put_ok by (rewrite !set_nth_length, repeat_length; lia). cbn [bind].
  change (Z.to_nat 0) with 0%nat. change (Z.to_nat 1) with 1%nat.
  assert (LR : length (repeat 0 m) = m) by apply repeat_length. set (z := repeat 0 m) in *. clearbody z.
  rewrite (nth_set_nth_eq z 0) by lia. rewrite !YT by lia.
  match goal with |- for_ _ _ _ ?x = _ => set (x2 := x) end.
  assert (X0 : nth 0 x2 0 = Phi (transformed m 0 u)).
  { unfold x2. rewrite nth_set_nth_ne by lia. rewrite nth_set_nth_eq by (rewrite !set_nth_length; lia). rewrite nth_set_nth_ne by lia. rewrite nth_set_nth_eq by lia.
    unfold transformed. cbn [Nat.ltb Nat.leb marsaglia]. cbn [reals ndiv nmul nint nsqrt num]. now rewrite Rmult_1_l, <- INR_IZR_INZ. }
  assert (X1 : nth 1 x2 0 = Phi (transformed m 1 u)).
  { unfold x2. rewrite nth_set_nth_eq by (rewrite !set_nth_length; lia). f_equal. rewrite nth_set_nth_ne by lia. rewrite nth_set_nth_eq by (rewrite !set_nth_length; lia).
    unfold transformed. cbn [Nat.ltb Nat.leb marsaglia]. cbn [reals ndiv nmul nint nsqrt nneg nadd nsub num]. rewrite minus_IZR, <- INR_IZR_INZ. now apply second_form. }
  assert (L2 : length x2 = m) by (unfold x2; now rewrite !set_nth_length). clearbody x2.
  match goal with |- for_ _ _ ?f _ = _ => destruct (for_inv (fun i (x : list R) => length x = m /\ forall t, (Z.of_nat t < i)%Z -> nth t x 0 = Phi (transformed m t u)) f (m - 2)%nat 2%Z x2) as (x & E & H1 & H2) end.
  - split; [exact L2|]. intros t T. destruct t as [|[|t]]; auto; lia.
  - intros j x J (G1 & G2). rewrite (get_ok 0) by lia. cbn [bind]. rewrite (get_ok 0) by lia. cbn [bind]. rewrite (get_ok 0) by lia. cbn [bind].
    rewrite put_ok by lia. cbn [bind]. rewrite (get_ok 0) by (rewrite set_nth_length; lia). cbn [bind]. rewrite put_ok by (rewrite set_nth_length; lia).
    eexists. split; [reflexivity|]. rewrite !set_nth_length. split; [exact G1|]. intros t T.
    destruct (Nat.eq_dec t (Z.to_nat j)) as [->|Ne].
    + rewrite nth_set_nth_eq by (rewrite set_nth_length; lia). rewrite nth_set_nth_eq by lia. f_equal.
      set (t := Z.to_nat j) in *. assert (Hj : j = Z.of_nat t) by lia. rewrite Hj.
      replace (Z.to_nat (Z.of_nat t - 2)) with (t - 2)%nat by lia. replace (Z.to_nat (Z.of_nat t - 1)) with (t - 1)%nat by lia.
      rewrite !YT by lia. unfold transformed. destruct (Nat.ltb_spec t 2); [lia|]. cbn [reals ndiv nmul nint nsqrt nneg nadd nsub num]. rewrite <- !INR_IZR_INZ.
      apply (third_form m t); lia.
    + rewrite !nth_set_nth_ne by lia. apply G2. lia.
  - refine (eq_trans E _). f_equal. apply nth_ext with 0 0; [now rewrite map_length, seq_length|].
    intros t T. set (g := fun t => Phi (transformed m t u)). rewrite nth_indep with (l := map g _) (d' := g O) by (rewrite map_length, seq_length; lia).
    rewrite map_nth, seq_nth by lia. cbn [Nat.add]. apply H2. lia.
Qed.
End Real.

(** C109: Marsaglia's transformation, which the program has in a comment, makes
    the sums uncorrelated, with variance 1. *)
Theorem C109_marsaglia : forall m s t, (2 <= m)%nat -> (s < m)%nat -> (t < m)%nat ->
  affine (2 * m - 1) (marsaglia m t) /\
  covariance (2 * m - 1) (marsaglia m s) (marsaglia m t) = if (s =? t)%nat then 1 else 0.
Proof.
  assert (H : forall m s t, (2 <= m)%nat -> (s < t)%nat -> (t < m)%nat -> covariance (2 * m - 1) (marsaglia m s) (marsaglia m t) = 0).
  { intros m s t M S T. destruct s as [|[|s]].
    - rewrite (cov_ext _ _ _ _ (fun u => mars_0 m u M)), cov_mix, !(cov_sym _ (overlapping m _)), !mars_prev by lia. ring.
    - rewrite (cov_ext _ _ _ _ (fun u => mars_1 m u M)), cov_mix, !(cov_sym _ (overlapping m _)), !mars_prev by lia. ring.
    - set (k := Datatypes.S (Datatypes.S s)) in *. assert (K : (2 <= k)%nat) by (unfold k; lia). clearbody k.
      rewrite (cov_ext _ _ _ _ (fun u => mars_t m k u K)), cov_mix, !(cov_sym _ (overlapping m _)), !mars_prev by lia. ring. }
  intros m s t M S T. split.
  - destruct t as [|[|t]].
    + apply affine_ext with (1 := fun u => eq_sym (mars_0 m u M)). apply affine_mix; lia.
    + apply affine_ext with (1 := fun u => eq_sym (mars_1 m u M)). apply affine_mix; lia.
    + set (k := Datatypes.S (Datatypes.S t)) in *. assert (K : (2 <= k)%nat) by (unfold k; lia). clearbody k.
      apply affine_ext with (1 := fun u => eq_sym (mars_t m k u K)). apply affine_mix; lia.
  - destruct (Nat.eqb_spec s t) as [->|Ne]; [apply mars_var; lia|]. destruct (Nat.lt_ge_cases s t) as [L|L]; [now apply H|]. rewrite cov_sym. apply H; lia.
Qed.
(** C109: what the program computes is correlated with the first sum, and has a
    variance above 1, from the fourth value on. *)
Theorem C109_refuted : forall m t, (3 <= t)%nat -> (t < m)%nat ->
  let a := 2 * INR m + 1 - INR t in
  affine (2 * m - 1) (transformed m t) /\
  covariance (2 * m - 1) (transformed m 0) (transformed m t) = - ((INR t - 2) / sqrt (INR m * (2 * a * (a - 1)))) /\
  covariance (2 * m - 1) (transformed m 0) (transformed m t) < 0 /\
  covariance (2 * m - 1) (transformed m t) (transformed m t) = 1 + (INR t - 2) / (a * (a - 1)) /\
  1 < covariance (2 * m - 1) (transformed m t) (transformed m t).
Proof.
  intros m t T3 T a. assert (M : (2 <= m)%nat) by lia. assert (MR : 2 <= INR m) by (apply le_INR in M; exact M). assert (TR : 3 <= INR t) by (apply le_INR in T3; cbn in T3; lra).
  pose proof (a_pos m t T) as A. fold a in A. destruct (scale_pos m t M T) as (Q & E). fold a in E.
  assert (XT : forall u, transformed m t u = mix (scale m t) (- (scale m t * (a - 1))) (scale m t * a) m (t - 2) (t - 1) t u).
  { intro u. unfold transformed. destruct (Nat.ltb_spec t 2); [lia|]. apply dh_t. }
  assert (X0 : forall u, transformed m 0 u = mix (/ sqrt (INR m)) 0 0 m 0 0 0 u) by (intro u; apply mars_0, M).
  assert (N2 : INR (t - 2) = INR t - 2) by (rewrite minus_INR by lia; reflexivity). assert (N1 : INR (t - 1) = INR t - 1) by (rewrite minus_INR by lia; reflexivity).
  assert (AE : INR t = 2 * INR m + 1 - a) by (unfold a; ring).
  assert (C0 : covariance (2 * m - 1) (transformed m 0) (transformed m t) = - ((INR t - 2) / sqrt (INR m * (2 * a * (a - 1))))).
  { rewrite (cov_ext _ _ _ _ X0), cov_mix, !(cov_sym _ (overlapping m _)), (cov_ext _ _ _ _ XT), cov_mix, !cov_over by lia.
    change (INR 0) with 0. rewrite N1, N2, !Rminus_0_r, !Rabs_pos_eq by lra. rewrite sqrt_mult by nra.
    replace (scale m t) with (/ sqrt (2 * a * (a - 1))) by reflexivity. pose proof (sqrt_lt_R0 (INR m) ltac:(lra)). pose proof (sqrt_lt_R0 (2 * a * (a - 1)) ltac:(nra)).
    rewrite AE. field. split; lra. }
  assert (CT : covariance (2 * m - 1) (transformed m t) (transformed m t) = 1 + (INR t - 2) / (a * (a - 1))).
  { rewrite (cov_ext _ _ _ _ XT), cov_mix, !(cov_sym _ (overlapping m _)), !(cov_ext _ _ _ _ XT), !cov_mix, !cov_over by lia. rewrite N1, N2.
    replace (INR t - 2 - (INR t - 2)) with 0 by ring. replace (INR t - 1 - (INR t - 1)) with 0 by ring. replace (INR t - INR t) with 0 by ring. rewrite Rabs_R0.
    rewrite (Rabs_left1 (INR t - 1 - INR t)), (Rabs_left1 (INR t - 2 - INR t)), (Rabs_left1 (INR t - 2 - (INR t - 1))) by lra. rewrite !Rabs_pos_eq by lra.
    set (q := scale m t) in *. transitivity (q * q * (2 * a * (a - 1)) * (1 + (INR t - 2) / (a * (a - 1)))); [|rewrite E; ring].
    rewrite AE. field. split; lra. }
  assert (P : 0 < (INR t - 2) / sqrt (INR m * (2 * a * (a - 1)))) by (apply Rdiv_lt_0_compat; [lra|]; apply sqrt_lt_R0; apply Rmult_lt_0_compat; nra).
  assert (P2 : 0 < (INR t - 2) / (a * (a - 1))) by (apply Rdiv_lt_0_compat; nra).
  split; [|split; [exact C0|split; [rewrite C0; lra|split; [exact CT|rewrite CT; lra]]]].
  apply affine_ext with (1 := fun u => eq_sym (XT u)). apply affine_mix; lia.
Qed.
(** The first three values are Marsaglia's. *)
Theorem C109_first : forall m t u, (t < 3)%nat -> transformed m t u = marsaglia m t u.
Proof. intros m t u T. destruct t as [|[|[|t]]]; [reflexivity|reflexivity|reflexivity|lia]. Qed.

(** C110: fewer than two samples lead outside the arrays; from two on, the test
    stays within them and ends with the verdict of the KS test on the values. *)
Theorem C110_refuted : forall A Phi u srt ks_test,
  diehard_sums A Phi u srt ks_test 0 = UB "array index" /\ diehard_sums A Phi u srt ks_test 1 = UB "array index".
Proof. intros. split; reflexivity. Qed.
Section Safe.
Variables (A : arith) (Phi : num A -> num A).
Lemma sums_y_safe u m : (1 <= m)%nat -> exists y, sums_y A u m = Ok y /\ length y = m.
Proof.
  intro M. unfold sums_y. cbv zeta. set (d := nint A 0).
  assert (F : exists s, sums_first A u m = Ok s /\ length (fst s) = m /\ length (snd s) = m).
  { unfold sums_first. match goal with |- context [for_ m 0 ?f ?s0] => destruct (for_inv (fun _ (s : list (num A) * list (num A)) => length (fst s) = m /\ length (snd s) = m) f m 0%Z s0) as (s' & E & H) end.
    - cbn [fst snd]. now rewrite !repeat_length.
    - intros j (rl, y) J (H1 & H2). cbn [fst snd] in *. rewrite put_ok by lia. cbn [bind]. rewrite (get_ok d) by (rewrite set_nth_length; lia). cbn [bind].
      rewrite (get_ok d) by lia. cbn [bind]. rewrite put_ok by lia. cbn [bind]. eexists. split; [reflexivity|]. cbn [fst snd]. now rewrite !set_nth_length.
    - exists s'. now split. }
  destruct F as ((rl, y) & -> & L1 & L2). cbn [bind fst snd] in *.
  match goal with |- context [for_ (m - 1) 1 ?f y] => destruct (for_inv (fun _ (y : list (num A)) => length y = m) f (m - 1)%nat 1%Z y) as (y' & -> & H) end.
  - exact L2.
  - intros j z J G. rewrite (get_ok d) by lia. cbn [bind]. rewrite (get_ok d) by lia. cbn [bind]. rewrite put_ok by lia. cbn [bind].
    rewrite put_ok by (rewrite set_nth_length; lia). eexists. split; [reflexivity|]. now rewrite !set_nth_length.
  - cbn [bind]. rewrite (get_ok d) by lia. cbn [bind]. rewrite put_ok by lia. eexists. split; [reflexivity|]. now rewrite set_nth_length.
Qed.
Lemma sums_x_safe u m : (2 <= m)%nat -> exists x, sums_x A Phi u m = Ok x /\ length x = m /\ Forall (fun p => exists z, p = Phi z) x.
Proof.
  intro M. unfold sums_x. cbv zeta. destruct (sums_y_safe u m ltac:(lia)) as (y & -> & LY). cbn [bind]. set (d := nint A 0).
  rewrite (get_ok d) by lia. cbn [bind]. rewrite put_ok by (rewrite repeat_length; lia). cbn [bind].
  rewrite (get_ok d) by (rewrite set_nth_length, repeat_length; lia). cbn [bind]. rewrite (get_ok d) by lia. cbn [bind].
  rewrite put_ok by (rewrite set_nth_length, repeat_length; lia). cbn [bind].
  rewrite (get_ok d) by (rewrite !set_nth_length, repeat_length; lia). cbn [bind]. rewrite put_ok by (rewrite !set_nth_length, repeat_length; lia). cbn [bind].
  rewrite (get_ok d) by (rewrite !set_nth_length, repeat_length; lia). cbn [bind]. rewrite put_ok by (rewrite !set_nth_length, repeat_length; lia). cbn [bind].
  change (Z.to_nat 0) with 0%nat. change (Z.to_nat 1) with 1%nat.
  match goal with |- context [for_ (m - 2) 2 ?f ?x0] => destruct (for_inv (fun i (x : list (num A)) => length x = m /\ forall t, (Z.of_nat t < i)%Z -> exists z, nth t x d = Phi z) f (m - 2)%nat 2%Z x0) as (x' & E & H1 & H2) end.
  - rewrite !set_nth_length, repeat_length. split; [reflexivity|]. intros [|[|t]] T; [| |lia].
    + rewrite nth_set_nth_ne by lia. rewrite nth_set_nth_eq by (rewrite !set_nth_length, repeat_length; lia). eexists; reflexivity.
    + rewrite nth_set_nth_eq by (rewrite !set_nth_length, repeat_length; lia). eexists; reflexivity.
  - intros j x J (G1 & G2). rewrite (get_ok d) by lia. cbn [bind]. rewrite (get_ok d) by lia. cbn [bind]. rewrite (get_ok d) by lia. cbn [bind].
    rewrite put_ok by lia. cbn [bind]. rewrite (get_ok d) by (rewrite set_nth_length; lia). cbn [bind]. rewrite put_ok by (rewrite set_nth_length; lia).
    eexists. split; [reflexivity|]. rewrite !set_nth_length. split; [exact G1|]. intros t T.
    destruct (Nat.eq_dec t (Z.to_nat j)) as [->|Ne].
    + rewrite nth_set_nth_eq by (rewrite set_nth_length; lia). eexists; reflexivity.
    + rewrite !nth_set_nth_ne by lia. apply G2. lia.
  - exists x'. split; [exact E|]. split; [exact H1|]. apply Forall_forall. intros p I. apply (In_nth _ _ d) in I. destruct I as (t & T & <-). apply H2. lia.
Qed.
Lemma for_ext {St} (f g : Z -> St -> outcome St) : forall n i s, (forall j s, (i <= j < i + Z.of_nat n)%Z -> f j s = g j s) -> for_ n i f s = for_ n i g s.
Proof.
  induction n as [|n IH]; intros i s H; cbn [for_]; [reflexivity|]. rewrite H by lia. destruct (g i s); cbn [bind]; try reflexivity. apply IH. intros. apply H. lia.
Qed.
(** C110: the test draws 2m-1 deviates. *)
Theorem C110_deviates : forall srt ks_test tsamples u v, (2 <= tsamples)%N -> (forall i, (i < 2 * N.to_nat tsamples - 1)%nat -> u i = v i) ->
  diehard_sums A Phi u srt ks_test tsamples = diehard_sums A Phi v srt ks_test tsamples.
Proof.
  intros srt ks n u v M H. unfold diehard_sums. destruct (N.leb (2 ^ 31) n); [reflexivity|]. set (m := N.to_nat n) in *. assert (HM : (2 <= m)%nat) by (unfold m; lia). clearbody m.
  assert (Y : sums_y A u m = sums_y A v m); [|unfold sums_x; now rewrite Y]. unfold sums_y. cbv zeta.
  replace (sums_first A v m) with (sums_first A u m).
  - destruct (sums_first A u m) as [(rl, y)| | |]; cbn [bind]; try reflexivity. erewrite for_ext; [reflexivity|].
    intros j z J. cbv beta. rewrite (H (m + Z.to_nat j - 1)%nat) by lia. reflexivity.
  - unfold sums_first. apply for_ext. intros j (rl, y) J. rewrite (H (Z.to_nat j)) by lia. reflexivity.
Qed.
End Safe.
(** C110: in doubles, the test has a verdict whenever the KS test can give one
    for that many values and the normal distribution's values are in [0,1]. *)
Theorem C110_safe : forall dpow dexp Phi u srt ks_test tsamples, sorts srt -> (forall z, pvalue_ok (Phi z)) ->
  (2 <= tsamples < 2 ^ 31)%N -> (ks_test = 0%N \/ ks_test <> 2%N /\ (tsamples <= 15000000)%N \/ (tsamples <= 23169)%N) ->
  exists p, diehard_sums (doubles dpow dexp) Phi u srt ks_test tsamples = Ok p.
Proof.
  intros dpow dexp Phi u srt ks n S P N K. unfold diehard_sums. destruct (N.leb_spec (2 ^ 31) n); [lia|]. change (2 ^ 31)%N with 2147483648%N in *.
  destruct (sums_x_safe (doubles dpow dexp) Phi u (N.to_nat n) ltac:(lia)) as (x & -> & L & F). cbn [bind].
  change (num (doubles dpow dexp)) with double in *. assert (LZ : Z.of_nat (length x) = Z.of_N n) by lia. rewrite <- LZ.
  destruct (C101_safe dpow dexp srt ks x S) as (p & E).
  - eapply Forall_impl; [|exact F]. intros a (z & ->). apply P.
  - lia.
  - destruct K as [K|[(K1 & K2)|K]]; [now left|right; left; split; [exact K1|lia]|right; right; lia].
  - unfold verdict in E. change (num (doubles dpow dexp)) with double in *. destruct (kstest (doubles dpow dexp) srt ks x (Z.of_nat (length x))) as [r| | |]; cbn [bind] in *; try discriminate. eexists; reflexivity.
Qed.
(** With 100 samples, as the program has it, the hundredth value's covariance
    with the first one is -0.0687.. (its square is given) and its variance is
    1.0096.. *)
Example C109_hundred : let c := covariance 199 (transformed 100 0) (transformed 100 99) in
  c * c = 9409 / 2060400 /\ covariance 199 (transformed 100 99) (transformed 100 99) = 1 + 97 / 10302.
Proof.
  cbv zeta. destruct (C109_refuted 100 99) as (_ & E1 & _ & E2 & _); [lia|lia|]. change (2 * 100 - 1)%nat with 199%nat in *.
  rewrite E1, E2. clear E1 E2. replace (INR 100) with 100 by (cbn; ring). replace (INR 99) with 99 by (cbn; ring). split; [|field].
  set (r := 100 * _). pose proof (sqrt_sqrt r ltac:(unfold r; lra)) as E. assert (0 < sqrt r) by (apply sqrt_lt_R0; unfold r; lra).
  transitivity (97 * 97 / (sqrt r * sqrt r)); [field; lra|]. rewrite E. unfold r. field.
Qed.
Example C109_three : sums_x reals (fun z => z) (fun i => INR i) 3 =
  Ok [transformed 3 0 (fun i => INR i); transformed 3 1 (fun i => INR i); transformed 3 2 (fun i => INR i)].
Proof. rewrite C109_values by lia. reflexivity. Qed.
Example C110_two : exists p, diehard_sums (doubles pow_ex exp_ex) (fun _ => dhalf) (fun _ => dhalf) dsort 0 2 = Ok p.
Proof.
  apply C110_safe; [apply dsort_sorts| |split; [discriminate|reflexivity]|now left]. intro z. split; [reflexivity|].
  replace (B2R dhalf) with (/ 2); [lra|]. unfold dhalf. cbn. unfold F2R. cbn. lra.
Qed.
Print Assumptions C109_values.
Print Assumptions C109_marsaglia.
Print Assumptions C109_refuted.
Print Assumptions C110_refuted.
Print Assumptions C110_deviates.
Print Assumptions C110_safe.
