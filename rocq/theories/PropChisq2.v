(** C106: chisq_binomial; C107: the likelihood-ratio test. *)
From Coq Require Import ZArith Reals Lra Lia List Bool.
From Flocq Require Import Core IEEE754.BinarySingleNaN.
From Verif Require Import ChisqModel ChisqSpec ChisqLemmas ChisqDoubles PropChisq KsReals KsLemmas3 BaseLemmas DoubleLemmas DoubleLemmas2.
Import ListNotations.
Open Scope R_scope.

Lemma for_fold {S B} (d : B) (g : S -> B -> S) : forall (l : list B) (f : Z -> S -> outcome S) i s,
  (forall j s, (j < length l)%nat -> f (i + Z.of_nat j)%Z s = Ok (g s (nth j l d))) -> for_ (length l) i f s = Ok (fold_left g l s).
Proof.
  induction l as [|b l IH]; intros f i s H; cbn [length for_ fold_left]; [reflexivity|].
  replace i with (i + Z.of_nat 0)%Z at 1 by lia. rewrite (H 0%nat) by (cbn; lia). cbn [bind nth]. apply IH.
  intros j t J. replace (i + 1 + Z.of_nat j)%Z with (i + Z.of_nat (Datatypes.S j))%Z by lia. rewrite H by (cbn; lia). reflexivity.
Qed.

Section Gen.
Variable A : arith.
Notation T := (num A).
Definition counted (b : T * T) : bool := ngt A (fst b) (nint A 10).
Definition binom_bins (pdf : Z -> T) (obs : list T) (nsamp : N) : list (T * T) :=
  combine obs (map (fun k => nmul A (nint A (Z.of_N nsamp)) (pdf (Z.of_nat k))) (seq 0 (length obs))).
Lemma binomial_fold Q pdf obs kmax nsamp : length obs = N.to_nat (kmax + 1) -> (kmax < 2 ^ 32 - 1)%N ->
  let used := filter counted (binom_bins pdf obs nsamp) in
  chisq_binomial A Q pdf obs kmax nsamp =
  Ok (Q (ndiv A (nint A (Z.of_N (sub32 (N.of_nat (length used)) 1))) (nint A 2)) (ndiv A (chisq_fold A used) (nint A 2))).
Proof.
  intros L K. cbv zeta. unfold chisq_binomial. destruct (N.eqb_spec kmax (2 ^ 32 - 1)); [lia|].
  set (bins := binom_bins pdf obs nsamp). assert (LB : length bins = length obs) by (unfold bins, binom_bins; rewrite combine_length, map_length, seq_length; lia).
  replace (N.to_nat kmax + 1)%nat with (length bins) by lia.
  rewrite (for_fold (nint A 0, nint A 0) (fun (s : T * N) b => if counted b then (nadd A (fst s) (delchisq A (fst b) (snd b)), add32 (snd s) 1) else s) bins).
  - cbn [bind].
    assert (F : forall l s c, (N.of_nat (length l) + c < 2 ^ 32)%N -> fold_left (fun (s : T * N) b => if counted b then (nadd A (fst s) (delchisq A (fst b) (snd b)), add32 (snd s) 1) else s) l (s, c) =
      (fold_left (fun s b => nadd A s (delchisq A (fst b) (snd b))) (filter counted l) s, (N.of_nat (length (filter counted l)) + c)%N)).
    { clear. intro l. induction l as [|b l IH]; intros s c C; cbn [fold_left filter length] in *; [reflexivity|]. destruct (counted b).
      - cbn [fst snd fold_left length]. unfold add32, w32. rewrite N.mod_small by lia. rewrite IH by lia. f_equal. lia.
      - apply IH. lia. }
    rewrite F by (rewrite LB, L; lia). now rewrite N.add_0_r.
  - intros j s J. rewrite Z.add_0_l. rewrite (get_nat (nint A 0)) by lia. cbn [bind].
    assert (Nb : nth j bins (nint A 0, nint A 0) = (nth j obs (nint A 0), nmul A (nint A (Z.of_N nsamp)) (pdf (Z.of_nat j)))).
    { unfold bins, binom_bins. rewrite combine_nth by (rewrite map_length, seq_length; reflexivity). f_equal.
      set (f := fun k => _). rewrite nth_indep with (d' := f O) by (rewrite map_length, seq_length; lia). rewrite map_nth, seq_nth by lia. reflexivity. }
    rewrite Nb. unfold counted. cbn [fst snd]. destruct (ngt A _ _); reflexivity.
Qed.
End Gen.

(** C106: with real numbers chisq_binomial is Pearson's test over the bins that
    were hit more than ten times. *)
Theorem C106_bins : forall Q p obs kmax nsamp, length obs = N.to_nat (kmax + 1) -> (kmax < 2 ^ 32 - 1)%N ->
  let law := against obs (IZR (Z.of_N nsamp)) (binomial (N.to_nat kmax) p) in
  let used := filter (fun b => if Rlt_dec 10 (fst b) then true else false) law in
  used <> [] ->
  chisq_binomial reals Q (fun k => binomial (N.to_nat kmax) p (Z.to_nat k)) obs kmax nsamp =
  Ok (Q ((INR (length used) - 1) / 2) (pearson used / 2)).
Proof.
  intros Q p obs kmax nsamp L K law used Ne. pose proof (binomial_fold reals Q (fun k => binomial (N.to_nat kmax) p (Z.to_nat k)) obs kmax nsamp L K) as E.
  cbv zeta in E. rewrite E.
  assert (U : filter (counted reals) (binom_bins reals (fun k => binomial (N.to_nat kmax) p (Z.to_nat k)) obs nsamp) = used).
  { unfold used, law, against, binom_bins, counted. f_equal. change (num reals) with R. f_equal. apply map_ext. intro k. rewrite Nat2Z.id. reflexivity. }
  rewrite U, fold_real. change (nint reals) with IZR. change (ndiv reals) with Rdiv. change (num reals) with R. do 3 f_equal.
  assert (Lu : (length used <= length obs)%nat).
  { unfold used. apply Nat.le_trans with (length law); [|unfold law, against; rewrite combine_length; lia]. clear.
    induction law as [|b l IH]; cbn; [lia|]. destruct (Rlt_dec _ _); cbn; lia. }
  assert (1 <= length used)%nat by (destruct used; [congruence|cbn; lia]).
  rewrite sub32_small by lia. rewrite N2Z.inj_sub by lia. rewrite minus_IZR, nat_N_Z, <- INR_IZR_INZ. reflexivity.
Qed.
(** Two tables that differ only in bins hit at most ten times have the same
    p-value, however much the law expects there. *)
Theorem C106_blind : forall dpow dexp Q pdf (obs obs' : list double) kmax nsamp, length obs = N.to_nat (kmax + 1) -> (kmax < 2 ^ 32 - 1)%N ->
  Forall2 (fun o o' => o = o' \/ dgt o (d_of_Z 10) = false /\ dgt o' (d_of_Z 10) = false) obs obs' ->
  chisq_binomial (doubles dpow dexp) Q pdf obs kmax nsamp = chisq_binomial (doubles dpow dexp) Q pdf obs' kmax nsamp.
Proof.
  intros dpow dexp Q pdf obs obs' kmax nsamp L K F.
  assert (L' : length obs' = length obs) by (clear -F; induction F; cbn; congruence).
  pose proof (binomial_fold (doubles dpow dexp) Q pdf obs kmax nsamp L K) as E. cbv zeta in E. rewrite E. clear E.
  assert (LL : length obs' = N.to_nat (kmax + 1)) by congruence.
  pose proof (binomial_fold (doubles dpow dexp) Q pdf obs' kmax nsamp LL K) as E. cbv zeta in E. rewrite E. clear E.
  replace (filter (counted (doubles dpow dexp)) (binom_bins (doubles dpow dexp) pdf obs' nsamp)) with
          (filter (counted (doubles dpow dexp)) (binom_bins (doubles dpow dexp) pdf obs nsamp)); [reflexivity|].
  unfold binom_bins. change (num (doubles dpow dexp)) with double in *. rewrite L'. generalize (seq 0 (length obs)) as ks. clear -F. induction F as [|o o' l l' H F IH]; intro ks; [reflexivity|].
  destruct ks as [|k ks]; [reflexivity|]. cbn [map combine filter]. set (e := nmul _ _ _). change (counted (doubles dpow dexp) (o, e)) with (dgt o (d_of_Z 10)).
  change (counted (doubles dpow dexp) (o', e)) with (dgt o' (d_of_Z 10)). destruct H as [->|(H1 & H2)].
  - destruct (dgt o' _); [f_equal|]; apply IH.
  - rewrite H1, H2. apply IH.
Qed.
(** A table with ten hits in every bin is a perfect fit to every law: the
    statistic is 0, with 2^32-1 degrees of freedom. *)
Theorem C106_refuted : forall dpow dexp Q pdf kmax, (kmax < 2 ^ 32 - 1)%N -> exists a x,
  chisq_binomial (doubles dpow dexp) Q pdf (repeat (d_of_Z 10) (N.to_nat (kmax + 1))) kmax (10 * (kmax + 1)) = Ok (Q a x) /\
  is_finite a = true /\ B2R a = 4294967295 / 2 /\ x = dzero.
Proof.
  intros dpow dexp Q pdf kmax K.
  pose proof (binomial_fold (doubles dpow dexp) Q pdf (repeat (d_of_Z 10) (N.to_nat (kmax + 1))) kmax (10 * (kmax + 1)) ltac:(apply repeat_length) K) as E.
  cbv zeta in E. rewrite E. clear E.
  replace (filter _ _) with (@nil (double * double)).
  - exists (ddiv (d_of_Z 4294967295) (d_of_Z 2)), (ddiv (d_of_Z 0) (d_of_Z 2)). split; [reflexivity|].
    destruct (half_int 4294967295 ltac:(lia)) as (F & V). split; [exact F|]. split; [exact V|]. apply B2SF_inj. vm_compute. reflexivity.
  - unfold binom_bins. change (num (doubles dpow dexp)) with double. set (m := map _ _). clearbody m.
    generalize (N.to_nat (kmax + 1)) as n. intro n. revert m. induction n as [|n IH]; intros [|e m]; cbn [repeat combine filter]; try reflexivity.
    unfold counted at 1. cbn [fst ngt doubles]. replace (dgt _ _) with false by (vm_compute; reflexivity). apply IH.
Qed.

(** One coin tossed 40 times: 22 heads and 18 tails are compared with 20 and 20;
    with 40 heads only that bin is looked at. *)
Lemma binomial_1 k : (k <= 1)%nat -> binomial 1 (/ 2) k = / 2.
Proof. intro H. destruct k as [|[|k]]; [| |lia]; unfold binomial; cbn; field. Qed.
Example C106_ex : forall Q,
  chisq_binomial reals Q (fun k => binomial 1 (/ 2) (Z.to_nat k)) [22; 18] 1 40 = Ok (Q ((2 - 1) / 2) ((4 / 20 + 4 / 20) / 2)) /\
  chisq_binomial reals Q (fun k => binomial 1 (/ 2) (Z.to_nat k)) [40; 0] 1 40 = Ok (Q ((1 - 1) / 2) (400 / 20 / 2)).
Proof.
  intro Q. split.
  - pose proof (C106_bins Q (/ 2) [22; 18] 1 40 eq_refl ltac:(lia)) as E. unfold against in E. change (N.to_nat 1) with 1%nat in E. cbn [length seq map combine filter fst] in E.
    destruct (Rlt_dec 10 22); [|lra]. destruct (Rlt_dec 10 18); [|lra]. rewrite !binomial_1 in E by lia. rewrite E by discriminate. cbn [length INR pearson total fold_right fst snd]. change (IZR (Z.of_N 40)) with 40.
    do 2 f_equal; lra.
  - pose proof (C106_bins Q (/ 2) [40; 0] 1 40 eq_refl ltac:(lia)) as E. unfold against in E. change (N.to_nat 1) with 1%nat in E. cbn [length seq map combine filter fst] in E.
    destruct (Rlt_dec 10 40); [|lra]. destruct (Rlt_dec 10 0); [lra|]. rewrite !binomial_1 in E by lia. rewrite E by discriminate. cbn [length INR pearson total fold_right fst snd]. change (IZR (Z.of_N 40)) with 40.
    do 2 f_equal; lra.
Qed.
Print Assumptions C106_bins.
Print Assumptions C106_blind.
Print Assumptions C106_refuted.
