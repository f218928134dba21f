(** C107: the likelihood-ratio test; C108: the test of independence. *)
From Coq Require Import ZArith Reals Lra Lia List Bool.
From Flocq Require Import Core IEEE754.BinarySingleNaN.
From Verif Require Import ChisqModel ChisqSpec ChisqLemmas PropChisq PropChisq2 KsSpec KsReals KsLemmas3 BaseLemmas.
Import ListNotations.
Open Scope R_scope.

Definition counts (obs : list N) : list R := map (fun o => IZR (Z.of_N o)) obs.
Lemma total_fold {B} (f : B -> R) : forall l s, fold_left (fun s b => s + f b) l s = s + total f l.
Proof.
  induction l as [|b l IH]; intro s; cbn [fold_left]; [change (s = s + 0); ring|]. rewrite IH. change (total f (b :: l)) with (f b + total f l). ring.
Qed.
Lemma total_ext {B} (f g : B -> R) l : (forall b, In b l -> f b = g b) -> total f l = total g l.
Proof.
  induction l as [|b l IH]; intro H; [reflexivity|]. change (f b + total f l = g b + total g l). rewrite IH, (H b); auto; [now left|]. intros; apply H; now right.
Qed.
Lemma total_scale {B} c (f : B -> R) l : total (fun b => c * f b) l = c * total f l.
Proof. induction l as [|b l IH]; [cbn; ring|]. change (c * f b + total (fun b => c * f b) l = c * (f b + total f l)). rewrite IH. ring. Qed.
Lemma total_map {B C} (h : B -> C) (f : C -> R) l : total f (map h l) = total (fun b => f (h b)) l.
Proof. induction l as [|b l IH]; [reflexivity|]. change (f (h b) + total f (map h l) = f (h b) + total (fun b => f (h b)) l). now rewrite IH. Qed.
Lemma total_le {B} (f g : B -> R) l : (forall b, In b l -> f b <= g b) -> total f l <= total g l.
Proof.
  induction l as [|b l IH]; intro H; [cbn; lra|]. change (f b + total f l <= g b + total g l).
  apply Rplus_le_compat; [apply H; now left|apply IH; intros; apply H; now right].
Qed.
Lemma total_zero {B} (f : B -> R) l : (forall b, In b l -> 0 <= f b) -> total f l = 0 -> forall b, In b l -> f b = 0.
Proof.
  induction l as [|b l IH]; intros H E x I; [destruct I|]. change (f b + total f l = 0) in E.
  assert (0 <= total f l). { replace 0 with (total (fun _ : B => 0) l); [apply total_le; intros; apply H; now right|]. clear. induction l; cbn; [reflexivity|]. fold (total (fun _ : B => 0) l). lra. }
  pose proof (H b (or_introl eq_refl)). destruct I as [<-|I]; [lra|]. apply IH; auto; [intros; apply H; now right|lra].
Qed.

(** C107: with real numbers the p-value is the upper tail of the chi-square law
    at the likelihood ratio divided by Smith's correction. *)
Theorem C107_gtest : forall Q obs n, (0 < n)%Z -> (Z.of_nat (length obs) <= 46340)%Z ->
  chisq_gtest reals Q ln obs n (Z.of_nat (length obs)) =
  Ok (Q ((INR (length obs) - 1) / 2) (Rabs (likelihood_ratio (counts obs) (IZR n) / smith (INR (length obs)) (IZR n)) / 2)).
Proof.
  intros Q obs n N L. unfold chisq_gtest. destruct (Z.ltb_spec (Z.of_nat (length obs)) 0); [lia|]. cbv zeta. rewrite Nat2Z.id.
  rewrite (for_fold 0%N (fun (s : R) o => s + 2 * (if Req_EM_T (IZR (Z.of_N o)) 0 then 0 else IZR (Z.of_N o) * ln (IZR (Z.of_N o) / (IZR n / INR (length obs)))))).
  - cbn [bind]. destruct (Z.ltb_spec (2 ^ 31 - 1) (Z.of_nat (length obs) + 1)); [lia|]. destruct (Z.ltb_spec (2 ^ 31 - 1) (Z.of_nat (length obs) * Z.of_nat (length obs))); [nia|]. cbn [orb].
    rewrite total_fold. change (nint reals) with IZR. change (ndiv reals) with Rdiv. change (nadd reals) with Rplus. change (nmul reals) with Rmult. change (nabs reals) with Rabs. change (num reals) with R.
    rewrite total_scale, minus_IZR, plus_IZR, mult_IZR, <- !INR_IZR_INZ.
    assert (IZR n <> 0) by (apply IZR_neq; lia).
    assert (SM : smith (INR (length obs)) (IZR n) = 1 + (INR (length obs) + 1) / (6 * IZR n) + INR (length obs) * INR (length obs) / (6 * IZR n * IZR n)) by (unfold smith; field; auto).
    rewrite SM. unfold likelihood_ratio, counts. rewrite map_length, total_map, Rplus_0_l. reflexivity.
  - intros j s J. rewrite Z.add_0_l. rewrite (get_nat 0%N) by lia. cbn [bind]. set (o := nth j obs 0%N).
    change (nint reals) with IZR. change (ndiv reals) with Rdiv. change (nadd reals) with Rplus. change (nmul reals) with Rmult. change (num reals) with R.
    destruct (N.eqb_spec o 0) as [->|Z]; destruct (Req_EM_T (IZR (Z.of_N _)) 0) as [E|E].
    + f_equal. ring.
    + now elim E.
    + exfalso. apply Z. apply (eq_IZR _ 0) in E. lia.
    + now rewrite <- INR_IZR_INZ.
Qed.
Lemma ln_above x : 0 < x -> 1 - / x <= ln x.
Proof.
  intro H. pose proof (exp_ineq1_le (- ln x)) as E. rewrite exp_Ropp, exp_ln in E by exact H. lra.
Qed.
Lemma ln_strict x : 0 < x -> 1 - / x = ln x -> x = 1.
Proof.
  intros H E. destruct (Req_dec (ln x) 0) as [L|L]; [rewrite <- (exp_ln x H), L; apply exp_0|].
  pose proof (exp_ineq1 (- ln x) ltac:(lra)) as G. rewrite exp_Ropp, exp_ln in G by exact H. lra.
Qed.
(** For counts with the sum [n] the likelihood ratio is never negative, and 0
    just if all the counts are equal. *)
Theorem C107_sign : forall obs n, (0 < n)%Z -> obs <> [] -> total (fun o => o) (counts obs) = IZR n ->
  0 <= likelihood_ratio (counts obs) (IZR n) /\
  (likelihood_ratio (counts obs) (IZR n) = 0 <-> forall o, In o obs -> IZR (Z.of_N o) = IZR n / INR (length obs)).
Proof.
  intros obs n N Ne S. assert (NR : 0 < IZR n) by (apply IZR_lt; lia). assert (K : 0 < INR (length obs)) by (apply lt_0_INR; destruct obs; [congruence|cbn; lia]).
  unfold likelihood_ratio. replace (length (counts obs)) with (length obs) by (unfold counts; now rewrite map_length).
  set (e := IZR n / INR (length obs)). assert (E : 0 < e) by (apply Rdiv_lt_0_compat; auto).
  set (f := fun o => if Req_EM_T o 0 then 0 else o * ln (o / e)).
  assert (P : forall o, In o (counts obs) -> 0 <= o) by (intros o I; apply in_map_iff in I; destruct I as (m & <- & _); apply IZR_le; lia).
  assert (G : forall o, 0 <= o -> o - e <= f o /\ (f o = o - e -> o = e)).
  { intros o O. unfold f. destruct (Req_EM_T o 0) as [->|Z]; [split; lra|]. assert (0 < o) by lra. assert (Q : 0 < o / e) by (apply Rdiv_lt_0_compat; lra).
    replace (o - e) with (o * (1 - / (o / e))) by (field; lra). split.
    - apply Rmult_le_compat_l; [lra|]. now apply ln_above.
    - intro H1. apply Rmult_eq_reg_l in H1; [|lra]. symmetry in H1. apply ln_strict in H1; [|exact Q]. apply Rmult_eq_reg_r with (/ e); [|apply Rinv_neq_0_compat; lra].
      rewrite Rinv_r by lra. exact H1. }
  assert (D : total (fun o => f o - (o - e)) (counts obs) = total f (counts obs)).
  { assert (H : forall l, total (fun o => f o - (o - e)) l = total f l - total (fun o => o) l + INR (length l) * e).
    { clear. induction l as [|o l IH]; [cbn; ring|].
      change (f o - (o - e) + total (fun o => f o - (o - e)) l = f o + total f l - (o + total (fun o => o) l) + INR (Datatypes.S (length l)) * e). rewrite IH, S_INR. ring. }
    rewrite H, S. replace (length (counts obs)) with (length obs) by (unfold counts; now rewrite map_length). unfold e. field. lra. }
  assert (D0 : forall o, In o (counts obs) -> 0 <= f o - (o - e)) by (intros o I; destruct (G o (P o I)); lra).
  assert (T0 : 0 <= total f (counts obs)).
  { rewrite <- D. replace 0 with (total (fun _ : R => 0) (counts obs)); [apply total_le; auto|]. clear. induction (counts obs) as [|a l IH]; [reflexivity|]. change (0 + total (fun _ => 0) l = 0). lra. }
  split; [lra|]. split.
  - intros H o I. assert (H0 : total f (counts obs) = 0) by lra. rewrite <- D in H0.
    pose proof (total_zero _ _ D0 H0 (IZR (Z.of_N o)) (in_map (fun o => IZR (Z.of_N o)) _ _ I)) as F. apply G; [apply IZR_le; lia|]. cbn beta in F. lra.
  - intro H. assert (F : total f (counts obs) = total (fun _ => 0) (counts obs)).
    { apply total_ext. intros o I. apply in_map_iff in I. destruct I as (m & <- & I). rewrite (H m I). unfold f. destruct (Req_EM_T e 0); [reflexivity|].
      replace (e / e) with 1 by (field; lra). rewrite ln_1. ring. }
    rewrite F. clear. induction (counts obs) as [|a l IH]; [cbn; ring|]. change (2 * (0 + total (fun _ => 0) l) = 0). lra.
Qed.
(** With 46341 or more bins the correction overflows. *)
Theorem C107_refuted : forall A Q nlog obs n, (46341 <= Z.of_nat (length obs) <= 2147483647)%Z ->
  chisq_gtest A Q nlog obs n (Z.of_nat (length obs)) = UB "int overflow".
Proof.
  intros A Q nlog obs n L. unfold chisq_gtest. destruct (Z.ltb_spec (Z.of_nat (length obs)) 0); [lia|]. cbv zeta. rewrite Nat2Z.id.
  rewrite (for_fold 0%N (fun (s : num A) o => if (o =? 0)%N then s else
    nadd A s (nmul A (nint A 2) (nmul A (nint A (Z.of_N o)) (nlog (ndiv A (nint A (Z.of_N o)) (ndiv A (nint A n) (nint A (Z.of_nat (length obs)))))))))).
  - cbn [bind]. destruct (Z.ltb_spec (2 ^ 31 - 1) (Z.of_nat (length obs) * Z.of_nat (length obs))); [|nia]. now rewrite orb_true_r.
  - intros j s J. rewrite Z.add_0_l. rewrite (get_nat 0%N) by lia. cbn [bind]. destruct (N.eqb _ _); reflexivity.
Qed.

(** ** Independence *)
Fixpoint nsum (n : nat) (f : nat -> N) : N := match n with O => 0%N | S n => (nsum n f + f n)%N end.
Lemma nsum_real n f : rsum n (fun k => IZR (Z.of_N (f k))) = IZR (Z.of_N (nsum n f)).
Proof. induction n as [|n IH]; cbn [rsum nsum]; [reflexivity|]. now rewrite IH, N2Z.inj_add, plus_IZR. Qed.
Lemma nsum_le_each n f k : (k < n)%nat -> (f k <= nsum n f)%N.
Proof. induction n as [|n IH]; intro K; [lia|]. cbn [nsum]. destruct (Nat.eq_dec k n) as [->|Ne]; [lia|]. specialize (IH ltac:(lia)). lia. Qed.
Lemma nsum_mono n f g : (forall k, (k < n)%nat -> (f k <= g k)%N) -> (nsum n f <= nsum n g)%N.
Proof. induction n as [|n IH]; intro H; cbn [nsum]; [lia|]. pose proof (H n ltac:(lia)). specialize (IH ltac:(intros; apply H; lia)). lia. Qed.
Lemma nsum_prefix n m f : (n <= m)%nat -> (nsum n f <= nsum m f)%N.
Proof. intro H. induction H as [|m H IH]; [lia|]. cbn [nsum]. lia. Qed.
Lemma sum_loop (get : Z -> outcome N) (g : nat -> N) n : (forall k, (k < n)%nat -> get (Z.of_nat k) = Ok (g k)) -> (nsum n g < 2 ^ 32)%N ->
  for_ n 0 (fun k s => do o <- get k ;; Ok (add32 s o)) 0%N = Ok (nsum n g).
Proof.
  intros G B. destruct (for_inv (fun i s => s = nsum (Z.to_nat i) g) (fun k s => do o <- get k ;; Ok (add32 s o)) n 0 0%N) as (s & -> & H).
  - reflexivity.
  - intros j s J ->. specialize (G (Z.to_nat j) ltac:(lia)). rewrite Z2Nat.id in G by lia. rewrite G. cbn [bind]. eexists. split; [reflexivity|].
    replace (Z.to_nat (j + 1)) with (Datatypes.S (Z.to_nat j)) by lia. cbn [nsum]. unfold add32, w32. apply N.mod_small.
    pose proof (nsum_prefix (Datatypes.S (Z.to_nat j)) n g ltac:(lia)) as P. cbn [nsum] in P. lia.
  - now rewrite H, Z.add_0_l, Nat2Z.id.
Qed.
Section Table.
Variables (rows columns : nat) (obs : list N).
Hypothesis L : length obs = (rows * columns)%nat.
Hypothesis Small : (Z.of_nat rows * Z.of_nat columns < 2 ^ 32)%Z.
Definition cell (i j : nat) : N := nth (i * columns + j) obs 0%N.
Lemma index_ok i j : (i < rows)%nat -> (j < columns)%nat -> aget obs (Z.of_N (add32 (mul32 (N.of_nat i) (N.of_nat columns)) (N.of_nat j))) = Ok (cell i j).
Proof.
  intros I J. assert (B : (i * columns + j < rows * columns)%nat) by nia.
  assert (M : mul32 (N.of_nat i) (N.of_nat columns) = N.of_nat (i * columns)) by (unfold mul32, w32; rewrite N.mod_small; lia).
  rewrite M. assert (E : add32 (N.of_nat (i * columns)) (N.of_nat j) = N.of_nat (i * columns + j)) by (unfold add32, w32; rewrite N.mod_small; lia).
  rewrite E, nat_N_Z. rewrite (get_nat 0%N) by lia. reflexivity.
Qed.
Notation n := (nsum rows (fun i => nsum columns (fun j => cell i j))).
Hypothesis Total : (n < 2 ^ 32)%N.
Lemma row_ok i : (i < rows)%nat -> row_sum obs (N.of_nat columns) (N.of_nat i) = Ok (nsum columns (fun k => cell i k)).
Proof.
  intro I. unfold row_sum. rewrite Nat2N.id. apply sum_loop with (get := fun k => aget obs (Z.of_N (add32 (mul32 (N.of_nat i) (N.of_nat columns)) (Z.to_N k)))).
  - intros k K. replace (Z.to_N (Z.of_nat k)) with (N.of_nat k) by lia. now apply index_ok.
  - pose proof (nsum_le_each rows (fun i => nsum columns (fun j => cell i j)) i I) as H. cbn beta in H. lia.
Qed.
Lemma column_ok j : (j < columns)%nat -> column_sum obs (N.of_nat rows) (N.of_nat columns) (N.of_nat j) = Ok (nsum rows (fun k => cell k j)).
Proof.
  intro J. unfold column_sum. rewrite Nat2N.id. apply sum_loop with (get := fun k => aget obs (Z.of_N (add32 (mul32 (Z.to_N k) (N.of_nat columns)) (N.of_nat j)))).
  - intros k K. replace (Z.to_N (Z.of_nat k)) with (N.of_nat k) by lia. now apply index_ok.
  - pose proof (nsum_mono rows (fun k => cell k j) (fun i => nsum columns (fun j => cell i j))) as H.
    specialize (H ltac:(intros k K; apply (nsum_le_each columns (fun j => cell k j) j J))). lia.
Qed.
End Table.
(** C108: with real numbers chisq2d is Pearson's test of independence of a table
    given row by row. *)
Theorem C108_independence : forall Q rows columns obs, (1 <= rows)%nat -> (1 <= columns)%nat ->
  length obs = (rows * columns)%nat -> (Z.of_nat rows * Z.of_nat columns < 2 ^ 32)%Z ->
  let n := nsum rows (fun i => nsum columns (fun j => cell columns obs i j)) in (n < 2 ^ 32)%N ->
  chisq2d reals Q obs (N.of_nat rows) (N.of_nat columns) n =
  Ok (Q ((INR rows - 1) * (INR columns - 1) / 2) (independence rows columns (IZR (Z.of_N n)) (fun i j => IZR (Z.of_N (cell columns obs i j))) / 2)).
Proof.
  intros Q rows columns obs R1 C1 L S n T. unfold chisq2d. cbv zeta. rewrite !Nat2N.id.
  set (term := fun i j => let e := rsum columns (fun k => IZR (Z.of_N (cell columns obs i k))) * rsum rows (fun k => IZR (Z.of_N (cell columns obs k j))) / IZR (Z.of_N n) in
     (IZR (Z.of_N (cell columns obs i j)) - e) ^ 2 / e).
  match goal with |- context [for_ rows 0 ?f ?s] => assert (E : for_ rows 0 f s = Ok (rsum rows (fun i => rsum columns (fun j => term i j)))) end.
  { match goal with |- for_ rows 0 ?f ?s = _ =>
      destruct (for_inv (fun i (t : R) => t = rsum (Z.to_nat i) (fun i => rsum columns (fun j => term i j))) f rows 0 s) as (s' & E' & H) end.
    - reflexivity.
    - intros i s I ->. set (base := rsum (Z.to_nat i) _).
      match goal with |- exists s', for_ columns 0 ?f base = _ /\ _ =>
        destruct (for_inv (fun j (s : R) => s = base + rsum (Z.to_nat j) (fun j => term (Z.to_nat i) j)) f columns 0 base) as (s & E' & H) end.
      + cbn. ring.
      + intros j s J ->. replace (Z.to_N i) with (N.of_nat (Z.to_nat i)) by lia. replace (Z.to_N j) with (N.of_nat (Z.to_nat j)) by lia.
        rewrite (row_ok rows columns obs L S T) by lia. cbn [bind]. rewrite (column_ok rows columns obs L S T) by lia. cbn [bind].
        rewrite (index_ok rows columns obs L S) by lia. cbn [bind]. eexists. split; [reflexivity|].
        replace (Z.to_nat (j + 1)) with (Datatypes.S (Z.to_nat j)) by lia. cbn [rsum]. rewrite <- Rplus_assoc. f_equal.
        unfold term. cbv zeta. rewrite !nsum_real.
        change (nint reals) with IZR. change (ndiv reals) with Rdiv. change (nadd reals) with Rplus. change (nmul reals) with Rmult. change (nsub reals) with Rminus. change (num reals) with R.
        cbn [pow]. rewrite Rmult_1_r. reflexivity.
      + eexists. split; [exact E'|]. rewrite Z.add_0_l, Nat2Z.id in H. replace (Z.to_nat (i + 1)) with (Datatypes.S (Z.to_nat i)) by lia. exact H.
    - refine (eq_trans E' _). now rewrite H, Z.add_0_l, Nat2Z.id. }
  rewrite E. cbn [bind]. change (ndiv reals) with Rdiv. change (nint reals) with IZR. change (num reals) with R.
  do 3 f_equal. rewrite !sub32_small by lia. unfold mul32, w32. rewrite N.mod_small by nia.
  rewrite N2Z.inj_mul, mult_IZR, !N2Z.inj_sub, !minus_IZR, !nat_N_Z, <- !INR_IZR_INZ by lia. reflexivity.
Qed.
(** C108: an empty row or column makes the p-value that of "not a number". *)
Theorem C108_refuted : forall dpow dexp Q, exists a x, chisq2d (doubles dpow dexp) Q [0; 0; 1; 1]%N 2 2 2 = Ok (Q a x) /\ disnan x = true.
Proof.
  intros. eexists. eexists. split.
  - cbv - [dadd dsub dmul ddiv d_of_Z]. reflexivity.
  - vm_compute. reflexivity.
Qed.

(** Three bins with 1, 2 and 3 of 6 hits: the ratio is positive. *)
Example C107_ex : total (fun o => o) (counts [1; 2; 3]%N) = IZR 6 /\ 0 < likelihood_ratio (counts [1; 2; 3]%N) 6.
Proof.
  assert (T : total (fun o => o) (counts [1; 2; 3]%N) = IZR 6) by (cbn; lra). split; [exact T|].
  destruct (C107_sign [1; 2; 3]%N 6 ltac:(lia) ltac:(discriminate) T) as (H0 & H1).
  destruct (Req_dec (likelihood_ratio (counts [1; 2; 3]%N) 6) 0) as [E|E]; [|lra].
  apply H1 with (o := 1%N) in E; [|now left]. cbn in E. lra.
Qed.
(** The table 10 20 / 30 40: 12, 18, 28 and 42 are expected. *)
Example C108_ex : independence 2 2 100 (fun i j => IZR (Z.of_N (cell 2 [10; 20; 30; 40]%N i j))) = 4 / 12 + 4 / 18 + 4 / 28 + 4 / 42 /\
  nsum 2 (fun i => nsum 2 (fun j => cell 2 [10; 20; 30; 40]%N i j)) = 100%N.
Proof. split; [cbn; lra|reflexivity]. Qed.
Print Assumptions C107_gtest.
Print Assumptions C107_sign.
Print Assumptions C107_refuted.
Print Assumptions C108_independence.
Print Assumptions C108_refuted.
