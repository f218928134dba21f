(** C105-C106: Pearson's chi-square tests. *)
From Coq Require Import ZArith Reals Lra Lia List Bool.
From Flocq Require Import Core IEEE754.BinarySingleNaN.
From Verif Require Import ChisqModel ChisqSpec ChisqLemmas ChisqDoubles KsReals KsLemmas3 ReportModel ReportSpec BaseLemmas DoubleLemmas DoubleLemmas2 DoubleLemmas3 SphereLemmas.
Import ListNotations.
Open Scope R_scope.

(** ** With real numbers *)
(** C105: chisq_pearson returns the upper tail of the chi-square law with one
    degree of freedom less than there are bins, at Pearson's statistic. *)
Theorem C105_pearson : forall Q O E, length O = length E ->
  chisq_pearson reals Q O E (Z.of_nat (length O)) = Ok (Q ((INR (length O) - 1) / 2) (pearson (combine O E) / 2)).
Proof.
  intros Q O E L. rewrite (pearson_fold reals) by exact L. rewrite fold_real. unfold pearson_p.
  change (nint reals) with IZR. change (ndiv reals) with Rdiv. change (num reals) with R. now rewrite minus_IZR, <- INR_IZR_INZ.
Qed.
Lemma against_map (obs : list N) n law : against (map (fun o => IZR (Z.of_N o)) obs) n law =
  combine (map (fun o => IZR (Z.of_N o)) obs) (map (fun i => n * law i) (seq 0 (length obs))).
Proof. unfold against. now rewrite map_length. Qed.
Lemma against_ext obs n f g : (forall k, f k = g k) -> against obs n f = against obs n g.
Proof. intro H. unfold against. f_equal. apply map_ext. intro k. now rewrite H. Qed.
Lemma law_real Q (pdf : Z -> R) obs nsamp :
  chisq_poisson reals Q pdf obs (Z.of_nat (length obs)) nsamp =
  Ok (Q ((INR (length obs) - 1) / 2) (pearson (against (map (fun o => IZR (Z.of_N o)) obs) (IZR (Z.of_N nsamp)) (fun i => pdf (Z.of_nat i))) / 2)).
Proof.
  rewrite (poisson_fold reals), fold_real. unfold pearson_p. rewrite against_map.
  change (nint reals) with IZR. change (ndiv reals) with Rdiv. change (num reals) with R. now rewrite minus_IZR, <- INR_IZR_INZ.
Qed.
(** chisq_poisson compares the counts of k = 0, 1, ... with the Poisson law. *)
Theorem C105_poisson : forall Q lambda obs nsamp,
  chisq_poisson reals Q (fun k => poisson lambda (Z.to_nat k)) obs (Z.of_nat (length obs)) nsamp =
  Ok (Q ((INR (length obs) - 1) / 2) (pearson (against (map (fun o => IZR (Z.of_N o)) obs) (IZR (Z.of_N nsamp)) (poisson lambda)) / 2)).
Proof.
  intros. rewrite law_real. do 4 f_equal. apply against_ext. intro k. now rewrite Nat2Z.id.
Qed.
(** chisq_geometric compares the counts of k = 1, 2, ... with the geometric law. *)
Theorem C105_geometric : forall Q p obs nsamp,
  chisq_geometric reals Q (fun k => geometric p (Z.to_nat k)) obs (Z.of_nat (length obs)) nsamp =
  Ok (Q ((INR (length obs) - 1) / 2) (pearson (against (map (fun o => IZR (Z.of_N o)) obs) (IZR (Z.of_N nsamp)) (fun i => geometric p (i + 1))) / 2)).
Proof.
  intros. unfold chisq_geometric. rewrite law_real. do 4 f_equal. apply against_ext. intro k. f_equal. lia.
Qed.

(** ** With doubles *)
Lemma half_int n : (Z.abs n < 2 ^ 53)%Z -> is_finite (ddiv (d_of_Z n) (d_of_Z 2)) = true /\ B2R (ddiv (d_of_Z n) (d_of_Z 2)) = IZR n / 2.
Proof.
  intro H. destruct (d_of_Z_val n ltac:(lia)) as (Fn & Vn & _). destruct (d_of_Z_val 2 ltac:(lia)) as (F2 & V2 & _).
  assert (B : Rabs (IZR n / 2) <= bpow radix2 900).
  { unfold Rdiv. rewrite Rabs_mult, (Rabs_pos_eq (/ 2)) by lra. rewrite <- abs_IZR. apply Rle_trans with (bpow radix2 53); [|apply bpow_le; lia].
    change (bpow radix2 53) with (IZR (2 ^ 53)). assert (IZR (Z.abs n) <= IZR (2 ^ 53)) by (apply IZR_le; lia).
    assert (0 <= IZR (Z.abs n)) by (apply IZR_le; lia). lra. }
  destruct (ddiv_tame (d_of_Z n) (d_of_Z 2) Fn) as (F & V); [rewrite V2; lra|rewrite Vn, V2; exact B|]. split; [exact F|].
  rewrite V, Vn, V2. unfold rnd. apply round_generic; auto with typeclass_instances.
  replace (IZR n / 2) with (F2R (Float radix2 n (-1))) by (unfold F2R; cbn; unfold Rdiv; ring).
  destruct (Z.eq_dec n 0) as [->|N]; [rewrite F2R_0; apply generic_format_0|].
  apply generic_format_F2R. intros _. unfold cexp. rewrite mag_F2R by exact N.
  assert (M : (mag radix2 (IZR n) <= 53)%Z).
  { apply mag_le_bpow; [now apply IZR_neq|]. rewrite <- abs_IZR. change (bpow radix2 53) with (IZR (2 ^ 53)). apply IZR_lt. lia. }
  unfold SpecFloat.fexp, SpecFloat.emin. lia.
Qed.
Lemma half_nice (x : double) n X : is_finite x = true -> nice (B2R x) -> 0 <= X -> within n X (B2R x) -> X <= bpow radix2 800 -> (Z.of_nat n <= 2 ^ 53)%Z ->
  is_finite (ddiv x (d_of_Z 2)) = true /\ within (S n) (X / 2) (B2R (ddiv x (d_of_Z 2))).
Proof.
  intros Fx Nx X0 W B L. destruct (d_of_Z_val 2 ltac:(lia)) as (F2 & V2 & _).
  assert (P : 0 <= B2R x) by now apply nice_nonneg.
  assert (U : B2R x <= bpow radix2 802).
  { destruct W as (_ & W). apply Rle_trans with (1 := W). pose proof (pow_le_3 n L). pose proof (up_pos n).
    change 802%Z with (800 + 2)%Z. rewrite bpow_plus. change (bpow radix2 2) with 4. apply Rmult_le_compat; lra. }
  assert (B9 : bpow radix2 802 <= bpow radix2 900) by (apply bpow_le; lia).
  destruct (ddiv_tame x (d_of_Z 2) Fx) as (F & V); [rewrite V2; lra|rewrite V2, Rabs_pos_eq; lra|]. split; [exact F|]. rewrite V, V2.
  destruct Nx as [E|Nx].
  - rewrite E in *. assert (X = 0) as -> by (destruct W as (W & _); pose proof (down_pos n); nra).
    replace (0 / 2) with 0 by lra. rewrite rnd_zero. unfold within. lra.
  - assert (G : bpow radix2 (-1000) <= B2R x / 2).
    { apply Rle_trans with (bpow radix2 (-900) / 2); [|lra]. change (-900)%Z with (-901 + 1)%Z. rewrite bpow_plus. change (bpow radix2 1) with 2.
      replace (bpow radix2 (-901) * 2 / 2) with (bpow radix2 (-901)) by lra. apply bpow_le. lia. }
    pose proof (rnd_rel _ G) as (R1 & R2). fold u53 in R1, R2. pose proof u53_pos. destruct W as (W1 & W2). unfold within. cbn [pow]. split.
    + apply Rle_trans with (2 := R1). replace (X / 2 * ((1 - u53) * (1 - u53) ^ n)) with (X * (1 - u53) ^ n / 2 * (1 - u53)) by lra. apply Rmult_le_compat_r; lra.
    + apply Rle_trans with (1 := R2). replace (X / 2 * ((1 + u53) * (1 + u53) ^ n)) with (X * (1 + u53) ^ n / 2 * (1 + u53)) by lra. apply Rmult_le_compat_r; lra.
Qed.
(** the same bins as real numbers *)
Definition exact (bins : list (double * double)) : list (R * R) := map (fun b => (B2R (fst b), B2R (snd b))) bins.
(** [a], [x] are the arguments for Pearson's test of [bins], [x] being off by at
    most one rounding (a factor between 1-2^-53 and 1+2^-53) per bin and five more. *)
Definition pearson_args (bins : list (double * double)) (a x : double) : Prop :=
  is_finite a = true /\ B2R a = (INR (length bins) - 1) / 2 /\ is_finite x = true /\ 0 <= B2R x /\
  pearson (exact bins) / 2 * (1 - / 2 ^ 53) ^ (length bins + 5) <= B2R x <= pearson (exact bins) / 2 * (1 + / 2 ^ 53) ^ (length bins + 5).
Definition bin_range (b : double * double) : Prop := count_ok (fst b) /\ expect_ok (snd b).
Lemma u53_eq : / 2 ^ 53 = u53.
Proof. unfold u53. f_equal. ring. Qed.
Lemma args_ok dpow dexp bins : (Z.of_nat (length bins) <= 2147483647)%Z -> Forall bin_range bins ->
  pearson_args bins (ddiv (d_of_Z (Z.of_nat (length bins) - 1)) (d_of_Z 2)) (ddiv (chisq_fold (doubles dpow dexp) bins) (d_of_Z 2)).
Proof.
  intros L F. destruct (half_int (Z.of_nat (length bins) - 1) ltac:(lia)) as (Fa & Va).
  destruct (chisq_double dpow dexp bins ltac:(lia) F) as (Fs & Ns & Ws & X0 & X1). fold (exact bins) in *.
  set (s := chisq_fold _ _) in *. change (num (doubles dpow dexp)) with double in *.
  destruct (half_nice s (length bins + 4) (pearson (exact bins)) Fs Ns X0 Ws) as (Fx & Wx).
  - apply Rle_trans with (1 := X1). apply Rle_trans with (bpow radix2 32 * bpow radix2 190); [|rewrite <- bpow_plus; apply bpow_le; lia].
    apply Rmult_le_compat_r; [apply bpow_ge_0|]. rewrite INR_IZR_INZ. change (bpow radix2 32) with (IZR 4294967296). apply IZR_le. lia.
  - lia.
  - unfold pearson_args. rewrite u53_eq. replace (length bins + 5)%nat with (S (length bins + 4)) by lia.
    split; [exact Fa|]. split; [rewrite Va, minus_IZR, <- INR_IZR_INZ; reflexivity|]. split; [exact Fx|]. split; [|exact Wx].
    apply within_nonneg with (2 := Wx). lra.
Qed.
Theorem C105_rounding : forall dpow dexp Q (O E : list double), length O = length E -> (Z.of_nat (length O) <= 2147483647)%Z ->
  Forall count_ok O -> Forall expect_ok E ->
  exists a x, chisq_pearson (doubles dpow dexp) Q O E (Z.of_nat (length O)) = Ok (Q a x) /\ pearson_args (combine O E) a x.
Proof.
  intros dpow dexp Q O E L B FO FE. assert (LC : length (combine O E) = length O) by (rewrite combine_length; lia).
  assert (F : Forall bin_range (combine O E)).
  { apply Forall_forall. intros (o, e) I. rewrite Forall_forall in FO, FE. split; [apply FO; now apply in_combine_l in I|apply FE; now apply in_combine_r in I]. }
  eexists. eexists. split; [apply (pearson_fold (doubles dpow dexp)); exact L|].
  pose proof (args_ok dpow dexp (combine O E) ltac:(rewrite LC; exact B) F) as H. rewrite LC in H. exact H.
Qed.
Theorem C105_rounding_poisson : forall dpow dexp Q (pdf : Z -> double) (obs : list N) nsamp, (Z.of_nat (length obs) <= 2147483647)%Z ->
  Forall (fun o => o < 2 ^ 32)%N obs ->
  (forall k, (k < length obs)%nat -> expect_ok (dmul (d_of_Z (Z.of_N nsamp)) (pdf (Z.of_nat k)))) ->
  exists a x, chisq_poisson (doubles dpow dexp) Q pdf obs (Z.of_nat (length obs)) nsamp = Ok (Q a x) /\
    pearson_args (combine (map (fun o => d_of_Z (Z.of_N o)) obs) (map (fun k => dmul (d_of_Z (Z.of_N nsamp)) (pdf (Z.of_nat k))) (seq 0 (length obs)))) a x.
Proof.
  intros dpow dexp Q pdf obs nsamp L FO FE.
  set (bins := combine _ _). assert (LC : length bins = length obs) by (unfold bins; rewrite combine_length, !map_length, seq_length; lia).
  assert (F : Forall bin_range bins).
  { apply Forall_forall. intros (o, e) I. unfold bins in I. split; cbn [fst snd].
    - apply in_combine_l in I. apply in_map_iff in I. destruct I as (n & <- & I). rewrite Forall_forall in FO. specialize (FO n I).
      assert (Hn : (Z.of_N n < 2 ^ 32)%Z) by (change (2 ^ 32)%Z with (Z.of_N (2 ^ 32)); lia).
      destruct (d_of_Z_val (Z.of_N n) ltac:(lia)) as (F & V & _). split; [exact F|]. exists (Z.of_N n). split; [lia|exact V].
    - apply in_combine_r in I. apply in_map_iff in I. destruct I as (k & <- & I). apply in_seq in I. apply FE. lia. }
  eexists. eexists. split; [apply (poisson_fold (doubles dpow dexp))|].
  pose proof (args_ok dpow dexp bins ltac:(rewrite LC; exact L) F) as H. rewrite LC in H. exact H.
Qed.
(** The same holds of the statistic of Vtest_eval, over the bins it uses. *)
Theorem C105_rounding_vtest : forall bins, (Z.of_nat (length bins) <= 2147483647)%Z -> Forall bin_range bins ->
  is_finite (chisq_of bins) = true /\
  pearson (exact bins) * (1 - / 2 ^ 53) ^ (length bins + 4) <= B2R (chisq_of bins) <= pearson (exact bins) * (1 + / 2 ^ 53) ^ (length bins + 4).
Proof.
  intros bins L F. destruct (chisq_double (fun x _ => x) (fun x => x) bins ltac:(lia) F) as (Fs & Ns & Ws & X0 & X1). fold (exact bins) in *.
  rewrite u53_eq. change (chisq_of bins) with (chisq_fold (doubles (fun x _ => x) (fun x => x)) bins). split; [exact Fs|exact Ws].
Qed.

(** 12 and 8 hits where 10 and 10 are expected: the statistic is 4/10 + 4/10. *)
Example C105_ex : pearson [(12, 10); (8, 10)] = 8 / 10 /\
  Forall count_ok [d_of_Z 12; d_of_Z 8] /\ Forall expect_ok [d_of_Z 10; d_of_Z 10] /\
  pearson (exact (combine [d_of_Z 12; d_of_Z 8] [d_of_Z 10; d_of_Z 10])) = 8 / 10.
Proof.
  destruct (d_of_Z_val 12 ltac:(lia)) as (F12 & V12 & _). destruct (d_of_Z_val 8 ltac:(lia)) as (F8 & V8 & _). destruct (d_of_Z_val 10 ltac:(lia)) as (F10 & V10 & _).
  assert (E : expect_ok (d_of_Z 10)).
  { split; [exact F10|]. rewrite V10. split; [|cbn; lra]. apply Rle_trans with 1; [|lra]. rewrite <- Rinv_1. apply Rinv_le; [lra|]. apply pow_R1_Rle. lra. }
  split; [cbn; lra|]. split; [|split].
  - repeat constructor; cbn; auto; [exists 12%Z|exists 8%Z]; auto; split; auto; lia.
  - constructor; [exact E|]. constructor; [exact E|constructor].
  - cbn [exact map combine fst snd]. rewrite V12, V8, V10. cbn. lra.
Qed.
Print Assumptions C105_pearson.
Print Assumptions C105_poisson.
Print Assumptions C105_geometric.
Print Assumptions C105_rounding.
Print Assumptions C105_rounding_poisson.
Print Assumptions C105_rounding_vtest.
