From Coq Require Import ZArith Reals Lra Lia List Bool.
From Verif Require Import ChisqModel ChisqSpec KsReals KsLemmas3 BaseLemmas.
Import ListNotations.
Open Scope Z_scope.

Section Gen.
Variable A : arith.
Notation T := (num A).
Definition chisq_fold (bins : list (T * T)) : T := fold_left (fun s b => nadd A s (delchisq A (fst b) (snd b))) bins (nint A 0).

Lemma sum_fold O E (k : nat) : (k <= length O)%nat -> (k <= length E)%nat ->
  chisq_sum A O E (Z.of_nat k) = Ok (chisq_fold (firstn k (combine O E))).
Proof.
  intros LO LE. unfold chisq_sum. rewrite Nat2Z.id.
  destruct (for_inv (fun i s => s = chisq_fold (firstn (Z.to_nat i) (combine O E)))
    (fun k chisq => do o <- aget O k ;; do e <- aget E k ;; Ok (nadd A chisq (delchisq A o e))) k 0 (nint A 0)) as (s & -> & H).
  - reflexivity.
  - intros j s J ->. rewrite !(get_ok (nint A 0)) by lia. cbn [bind]. eexists. split; [reflexivity|].
    replace (Z.to_nat (j + 1)) with (S (Z.to_nat j)) by lia.
    assert (L : (Z.to_nat j < length (combine O E))%nat) by (rewrite combine_length; lia).
    set (t := Z.to_nat j) in *. clearbody t. unfold chisq_fold.
    assert (F : firstn (S t) (combine O E) = firstn t (combine O E) ++ [nth t (combine O E) (nint A 0, nint A 0)]).
    { clear -L. revert L. generalize (combine O E) as l. induction t as [|t IH]; intros [|x l] L; cbn in *; try lia; [reflexivity|]. f_equal. apply IH. lia. }
    rewrite F, fold_left_app. cbn [fold_left].
    assert (Nn : nth t (combine O E) (nint A 0, nint A 0) = (nth t O (nint A 0), nth t E (nint A 0))).
    { clear -L. revert E t L. induction O as [|o O IH]; intros [|e E] [|t] L; cbn in *; try lia; [reflexivity|]. apply IH. lia. }
    now rewrite Nn.
  - now rewrite H, Z.add_0_l, Nat2Z.id.
Qed.
Lemma expected_ok (k : nat) nsamp pdf : expected_vec A (Z.of_nat k) nsamp pdf =
  Ok (map (fun i => nmul A (nint A (Z.of_N nsamp)) (pdf (Z.of_nat i))) (seq 0 k)).
Proof.
  unfold expected_vec. rewrite Nat2Z.id. set (z := nint A 0).
  destruct (flat_loop z (fun i _ => nmul A (nint A (Z.of_N nsamp)) (pdf (Z.of_nat i)))
     (fun k e => aset e k (nmul A (nint A (Z.of_N nsamp)) (pdf k))) k (repeat z k)) as (C & -> & L & H).
  - apply repeat_length.
  - intros i C I L. rewrite put_ok by lia. now rewrite Z2Nat.id by lia.
  - f_equal. apply nth_ext with z z; [now rewrite L, map_length, seq_length|]. intros n Hn.
    rewrite H by lia. rewrite L in Hn. clear -Hn.
    set (f := fun i => nmul A (nint A (Z.of_N nsamp)) (pdf (Z.of_nat i))).
    rewrite nth_indep with (d' := f O) by (rewrite map_length, seq_length; lia).
    rewrite map_nth, seq_nth by lia. reflexivity.
Qed.
Lemma firstn_combine : forall (O E : list T), firstn (length O) (combine O E) = combine O E.
Proof. intros. apply firstn_all2. rewrite combine_length. lia. Qed.
Lemma pearson_fold Q O E : length O = length E ->
  chisq_pearson A Q O E (Z.of_nat (length O)) = Ok (pearson_p A Q (Z.of_nat (length O)) (chisq_fold (combine O E))).
Proof.
  intro L. unfold chisq_pearson. destruct (Z.ltb_spec (Z.of_nat (length O)) 0); [lia|].
  rewrite sum_fold by lia. now rewrite firstn_combine.
Qed.
Lemma poisson_fold Q pdf obs nsamp :
  chisq_poisson A Q pdf obs (Z.of_nat (length obs)) nsamp =
  Ok (pearson_p A Q (Z.of_nat (length obs)) (chisq_fold (combine (map (fun o => nint A (Z.of_N o)) obs)
    (map (fun i => nmul A (nint A (Z.of_N nsamp)) (pdf (Z.of_nat i))) (seq 0 (length obs)))))).
Proof.
  unfold chisq_poisson. destruct (Z.ltb_spec (Z.of_nat (length obs)) 0); [lia|]. rewrite expected_ok. cbn [bind].
  rewrite sum_fold by (rewrite map_length; try rewrite seq_length; lia). cbn [bind].
  rewrite <- (map_length (fun o => nint A (Z.of_N o)) obs) at 2. now rewrite firstn_combine.
Qed.
End Gen.

Open Scope R_scope.
Lemma total_app {B} (f : B -> R) l m : total f (l ++ m) = total f l + total f m.
Proof.
  induction l as [|a l IH]; [change (total f m = 0 + total f m); ring|].
  change (f a + total f (l ++ m) = f a + total f l + total f m). rewrite IH. ring.
Qed.
Lemma fold_real : forall bins, chisq_fold reals bins = pearson bins.
Proof.
  intro bins. unfold chisq_fold. change (nint reals 0) with 0. rewrite <- (Rplus_0_l (pearson bins)). generalize 0 as s.
  induction bins as [|(o, e) l IH]; intro s; cbn [fold_left]; [change (s = s + 0); ring|].
  rewrite IH. change (pearson ((o, e) :: l)) with ((o - e) ^ 2 / e + pearson l). cbn [fst snd].
  unfold delchisq. change (nadd reals) with Rplus. change (ndiv reals) with Rdiv. change (nmul reals) with Rmult. change (nsub reals) with Rminus.
  change (num reals) with R. unfold Rdiv. ring.
Qed.
