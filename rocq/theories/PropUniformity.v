(** C155: the uniformity test (rgb_kstest_test.c). *)
From Coq Require Import ZArith Reals Lra Lia List Permutation Sorted Bool.
From Flocq Require Import Core IEEE754.BinarySingleNaN.
From Verif Require Import KsModel KsSpec KsLemmas KsLemmas2 DoubleLemmas DoubleLemmas2 BaseLemmas PropKs KsSpec2 PropKs5 UniformityModel UniformitySpec.
Import ListNotations.
Open Scope R_scope.

(** ** Drawing *)
Lemma drawn_S g c k : drawn g c (S k) = g c :: drawn g (S c) k.
Proof. reflexivity. Qed.
Lemma positive_cons x l : positive (x :: l) = if deq x dzero then positive l else x :: positive l.
Proof. unfold positive. cbn [filter]. destruct (deq x dzero); reflexivity. Qed.

Lemma gives_zero g c k n : deq (g c) dzero = true -> gives g c (S k) n -> gives g (S c) k n.
Proof.
  intros E (L & H). rewrite drawn_S, positive_cons, E in L. split; [exact L|].
  intros j J. specialize (H (S j) ltac:(lia)). rewrite drawn_S, positive_cons, E in H. exact H.
Qed.
Lemma gives_pos g c k n : deq (g c) dzero = false -> gives g c (S k) (S n) -> gives g (S c) k n.
Proof.
  intros E (L & H). rewrite drawn_S, positive_cons, E in L. cbn [length] in L. split; [lia|].
  intros j J. specialize (H (S j) ltac:(lia)). rewrite drawn_S, positive_cons, E in H. cbn [length] in H. lia.
Qed.
Lemma gives_none g c k : gives g c k 0 -> k = O.
Proof. intros (_ & H). destruct k; [reflexivity|]. specialize (H O ltac:(lia)). lia. Qed.

Lemma pos_some : forall k g c n fuel, gives g c k (S n) -> (k < fuel)%nat ->
  exists j, (j < k)%nat /\ uniform_pos fuel g c = Ok (g (c + j)%nat, S (c + j)) /\ gives g (S (c + j)) (k - S j) n /\
    positive (drawn g c k) = g (c + j)%nat :: positive (drawn g (S (c + j)) (k - S j)).
Proof.
  induction k as [|k IH]; intros g c n fuel G F.
  - destruct G as (L & _). discriminate L.
  - destruct fuel as [|fuel]; [lia|]. cbn [uniform_pos]. destruct (deq (g c) dzero) eqn:E.
    + destruct (IH g (S c) n fuel (gives_zero g c k (S n) E G) ltac:(lia)) as (j & J & U & G' & P). exists (S j).
      rewrite drawn_S, positive_cons, E. replace (c + S j)%nat with (S c + j)%nat by lia.
      replace (S k - S (S j))%nat with (k - S j)%nat by lia. repeat split; try exact U; try exact P; try apply G'; lia.
    + exists O. rewrite Nat.add_0_r. rewrite drawn_S, positive_cons, E. replace (S k - 1)%nat with k by lia.
      repeat split; try lia; apply (gives_pos g c k n E G).
Qed.

Lemma testvec_gives : forall n g c k fuel, gives g c k n -> (k < fuel)%nat ->
  testvec fuel g n c = Ok (positive (drawn g c k), (c + k)%nat).
Proof.
  induction n as [|n IH]; intros g c k fuel G F.
  - apply gives_none in G. subst k. rewrite Nat.add_0_r. reflexivity.
  - destruct (pos_some k g c n fuel G F) as (j & J & U & G' & P). cbn [testvec]. rewrite U. cbn [bind fst snd].
    rewrite (IH g (S (c + j)) (k - S j)%nat fuel G' ltac:(lia)). cbn [bind fst snd]. rewrite P.
    do 2 f_equal. lia.
Qed.

Lemma firstn_whole {A} n (l : list A) : length l = n -> firstn n l = l.
Proof. intros <-. apply firstn_all. Qed.
Lemma as_int_small n : (0 <= n < 2 ^ 31)%Z -> as_int n = n.
Proof. intro H. unfold as_int. rewrite Z.mod_small by lia. destruct (Z.ltb_spec n (2 ^ 31)); lia. Qed.
Lemma as_int_large n : (2 ^ 31 <= n < 2 ^ 32)%Z -> (as_int n < 0)%Z.
Proof. intro H. unfold as_int. rewrite Z.mod_small by lia. destruct (Z.ltb_spec n (2 ^ 31)); lia. Qed.

Section Test.
Variables (dpow : double -> Z -> double) (dexp : double -> double).
Notation D := (doubles dpow dexp).

(** C155: the test takes numbers until it has tsamples of them that are not
    zero, and no more; its p-value is the one the chosen Kolmogorov-Smirnov
    test gives to those. *)
Theorem C155_draws : forall fuel srt ks_test g tsamples c k, gives g c k tsamples -> (k < fuel)%nat ->
  (Z.of_nat tsamples < 2 ^ 31)%Z ->
  let v := positive (drawn g c k) in
  rgb_kstest_test fuel dpow dexp srt ks_test g tsamples c =
    do p <- verdict (if (3 <=? ks_test)%N then kstest_kuiper fuel dexp srt v (Z.of_nat tsamples)
                     else kstest D srt ks_test v (Z.of_nat tsamples)) ;; Ok (p, (c + k)%nat).
Proof.
  intros fuel srt ks g n c k G F N v. unfold rgb_kstest_test. rewrite (testvec_gives n g c k fuel G F). cbn [bind fst snd].
  rewrite as_int_small by lia. fold v. unfold verdict.
  destruct (if (3 <=? ks)%N then _ else _); reflexivity.
Qed.

Lemma positive_ok g c k : uniform_stream g -> Forall pvalue_ok (positive (drawn g c k)).
Proof.
  intro U. apply Forall_forall. intros x I. apply filter_In in I. destruct I as (I & _).
  apply in_map_iff in I. destruct I as (i & <- & _). destruct (U i) as (F & R). split; [exact F|]. lra.
Qed.
Lemma positive_finite g c k : uniform_stream g -> Forall (fun p => is_finite p = true) (positive (drawn g c k)).
Proof. intro U. eapply Forall_impl; [|apply (positive_ok g c k U)]. intros a A. apply A. Qed.

(** ... which is computed, for -k 0, 1 and 2, from a number within 1/(n+1) and
    rounding of the Kolmogorov-Smirnov distance of those deviates from uniform *)
Theorem C155_distance : forall fuel srt ks_test g tsamples c k, sorts srt -> uniform_stream g -> gives g c k tsamples ->
  (k < fuel)%nat -> (2 <= Z.of_nat tsamples < 2 ^ 31)%Z -> (ks_test < 3)%N ->
  exists d, is_finite d = true /\ 0 <= B2R d <= 1 /\
    rgb_kstest_test fuel dpow dexp srt ks_test g tsamples c =
      (do p <- from_dmax dpow dexp ks_test (Z.of_nat tsamples) d ;; Ok (p, (c + k)%nat)) /\
    (forall dist, ks_distance (map (@B2R 53 1024) (positive (drawn g c k))) dist ->
       dist - 1 / (INR tsamples + 1) - / 2 ^ 52 <= B2R d <= dist + / 2 ^ 52).
Proof.
  intros fuel srt ks g n c k S U G F N K. rewrite (C155_draws fuel srt ks g n c k G F) by lia.
  destruct (N.leb_spec 3 ks); [lia|]. pose proof (proj1 G) as L.
  destruct (C97_bounds dpow dexp srt ks (positive (drawn g c k)) S (positive_ok g c k U)) as (d & Fd & Rd & E & _ & B).
  - rewrite L. lia.
  - rewrite L in E, B. exists d. cbv zeta. change (KsModel.num D) with double in E. unfold double in *. rewrite E. auto.
Qed.

(** ... and for -k 3 from one within 1/n and rounding of Kuiper's distance *)
Theorem C155_kuiper : forall fuel srt ks_test g tsamples c k V, sorts srt -> uniform_stream g -> gives g c k tsamples ->
  (k < fuel)%nat -> (2 <= Z.of_nat tsamples < 2 ^ 31)%Z -> (3 <= ks_test)%N ->
  kuiper_distance (map (@B2R 53 1024) (positive (drawn g c k))) V ->
  exists v, is_finite v = true /\ V - 1 / INR tsamples - / 2 ^ 50 <= B2R v <= V + / 2 ^ 50 /\
    rgb_kstest_test fuel dpow dexp srt ks_test g tsamples c =
      do p <- from_v dexp fuel (Z.of_nat tsamples) v ;; Ok (p, (c + k)%nat).
Proof.
  intros fuel srt ks g n c k V S U G F N K HV. rewrite (C155_draws fuel srt ks g n c k G F) by lia.
  destruct (N.leb_spec 3 ks); [|lia]. pose proof (proj1 G) as L.
  destruct (C104_bounds dexp srt fuel (positive (drawn g c k)) V S (positive_ok g c k U)) as (v & Fv & Rv & E).
  - rewrite L. lia.
  - exact HV.
  - rewrite L in Rv, E. exists v. cbv zeta. rewrite E. auto.
Qed.

(** Two lists of positive doubles with the same sorted values are the same. *)
Lemma same_sorted srt srt' l l' : sorts srt -> sorts srt' -> Forall (fun p => is_finite p = true) l ->
  Forall (fun p => deq p dzero = false) l -> Permutation l l' -> srt l = srt' l'.
Proof.
  intros S S' F Z P. pose proof (sorts_same srt srt' l l' S S' F P) as E.
  assert (F' : Forall (fun p => is_finite p = true) l') by (eapply Permutation_Forall; eauto).
  assert (Z' : Forall (fun p => deq p dzero = false) l') by (eapply Permutation_Forall; eauto).
  destruct (S l F) as (P1 & _). destruct (S' l' F') as (P2 & _).
  assert (A : Forall (fun p : double => is_finite p = true /\ deq p dzero = false) (srt l)).
  { eapply Permutation_Forall; [exact P1|]. rewrite Forall_forall in *. auto. }
  assert (A' : Forall (fun p : double => is_finite p = true /\ deq p dzero = false) (srt' l')).
  { eapply Permutation_Forall; [exact P2|]. rewrite Forall_forall in *. auto. }
  revert E A A'. generalize (srt l) (srt' l'). clear. intros a. induction a as [|x a IH]; intros [|y b] E A B; try discriminate; auto.
  cbn [map] in E. injection E as E1 E2. inversion A as [|? ? (Fx & Zx) A2]; subst. inversion B as [|? ? (Fy & Zy) B2]; subst.
  f_equal; [|auto]. apply B2R_inj; auto.
  - destruct x as [s|s| |s m e]; try discriminate; auto; destruct s; discriminate Zx.
  - destruct y as [s|s| |s m e]; try discriminate; auto; destruct s; discriminate Zy.
Qed.

(** C155: only which deviates came matters, not their order, nor the zeros
    between them, nor the way the sort is done. *)
Theorem C155_order : forall fuel srt srt' ks_test g g' tsamples c c' k k', sorts srt -> sorts srt' ->
  uniform_stream g -> uniform_stream g' -> gives g c k tsamples -> gives g' c' k' tsamples -> (k < fuel)%nat -> (k' < fuel)%nat ->
  (Z.of_nat tsamples < 2 ^ 31)%Z -> Permutation (positive (drawn g c k)) (positive (drawn g' c' k')) ->
  verdict (rgb_kstest_test fuel dpow dexp srt ks_test g tsamples c) =
  verdict (rgb_kstest_test fuel dpow dexp srt' ks_test g' tsamples c').
Proof.
  intros fuel srt srt' ks g g' n c c' k k' S S' U U' G G' F F' N P.
  rewrite (C155_draws fuel srt ks g n c k G F N), (C155_draws fuel srt' ks g' n c' k' G' F' N). cbv zeta.
  assert (V : forall (o : outcome (double * list double)) (c : nat), verdict (do p <- verdict o ;; Ok (p, c)) = verdict o).
  { intros o c0. destruct o as [[x y]| | |]; reflexivity. }
  rewrite !V. pose proof (proj1 G) as L. pose proof (proj1 G') as L'. destruct (3 <=? ks)%N.
  - assert (Z : Forall (fun p => deq p dzero = false) (positive (drawn g c k))).
    { apply Forall_forall. intros x I. apply filter_In in I. destruct I as (_ & I). now apply negb_true_iff in I. }
    pose proof (same_sorted srt srt' _ _ S S' (positive_finite g c k U) Z P) as E.
    unfold kstest_kuiper. destruct (Z.eqb_spec (Z.of_nat n) 1) as [E1|E1].
    + destruct (positive (drawn g c k)) as [|x [|y l]]; cbn [length] in L; try lia.
      apply Permutation_length_1_inv in P. rewrite P. reflexivity.
    + revert L L' E. generalize (positive (drawn g c k)) (positive (drawn g' c' k')). intros l l' L L' E. rewrite L, L'.
      destruct ((Z.of_nat n <? 0)%Z || (Z.of_nat n <? Z.of_nat n)%Z); [reflexivity|].
      rewrite Nat2Z.id, (firstn_whole n l L), (firstn_whole n l' L'), E. cbv zeta.
      destruct (v_loop _ _ _ _ _ _) as (vmax, vmin). destruct (q_ks_kuiper _ _ _ _); reflexivity.
  - pose proof (C96_order dpow dexp srt srt' ks (positive (drawn g c k)) (positive (drawn g' c' k')) S S' (positive_finite g c k U) P) as H.
    rewrite L, L' in H. apply H. lia.
Qed.

(** With one sample the p-value is the deviate itself. *)
Theorem C155_one : forall fuel srt ks_test g c k, gives g c (S k) 1 -> (S k < fuel)%nat ->
  rgb_kstest_test fuel dpow dexp srt ks_test g 1 c = Ok (g (c + k)%nat, (c + S k)%nat).
Proof.
  intros fuel srt ks g c k G F. rewrite (C155_draws fuel srt ks g 1 c (S k) G F) by (cbn; lia).
  destruct (pos_some (S k) g c O fuel G F) as (j & J & _ & G' & E). apply gives_none in G'.
  assert (j = k) by lia. subst j. cbv zeta. rewrite E. destruct (3 <=? ks)%N; reflexivity.
Qed.

(** Refuted: from 2^31 samples on the p-value is -1 whatever is drawn. *)
Theorem C155_many_refuted : forall fuel srt ks_test g tsamples c k, gives g c k tsamples -> (k < fuel)%nat -> (ks_test < 3)%N ->
  (2 ^ 31 <= Z.of_nat tsamples < 2 ^ 32)%Z ->
  rgb_kstest_test fuel dpow dexp srt ks_test g tsamples c = Ok (d_of_Z (-1), (c + k)%nat).
Proof.
  intros fuel srt ks g n c k G F K N. unfold rgb_kstest_test. rewrite (testvec_gives n g c k fuel G F). cbn [bind fst snd].
  destruct (N.leb_spec 3 ks); [lia|]. pose proof (as_int_large _ N). unfold kstest.
  destruct (Z.ltb_spec (as_int (Z.of_nat n)) 1); [reflexivity|lia].
Qed.
(** ... and Kuiper's test is asked to sort an array of negative length *)
Theorem C155_many_kuiper_refuted : forall fuel srt ks_test g tsamples c k, gives g c k tsamples -> (k < fuel)%nat -> (3 <= ks_test)%N ->
  (2 ^ 31 <= Z.of_nat tsamples < 2 ^ 32)%Z ->
  exists msg, rgb_kstest_test fuel dpow dexp srt ks_test g tsamples c = UB msg.
Proof.
  intros fuel srt ks g n c k G F K N. unfold rgb_kstest_test. rewrite (testvec_gives n g c k fuel G F). cbn [bind fst snd].
  destruct (N.leb_spec 3 ks); [|lia]. pose proof (as_int_large _ N). unfold kstest_kuiper.
  destruct (Z.eqb_spec (as_int (Z.of_nat n)) 1); [lia|]. destruct (Z.ltb_spec (as_int (Z.of_nat n)) 0); [|lia]. cbn [orb].
  eexists. reflexivity.
Qed.
(** Refuted: a generator that gives only zeros is never judged: the test does
    not end. *)
Theorem C155_zeros_refuted : forall fuel srt ks_test g tsamples c, (forall i, (c <= i)%nat -> deq (g i) dzero = true) ->
  (0 < tsamples)%nat -> rgb_kstest_test fuel dpow dexp srt ks_test g tsamples c = OutOfFuel.
Proof.
  intros fuel srt ks g n c Z N. destruct n as [|n]; [lia|]. unfold rgb_kstest_test. cbn [testvec].
  replace (uniform_pos fuel g c) with (@OutOfFuel (double * nat)); [reflexivity|].
  revert c Z. induction fuel as [|f IH]; intros c Z; [reflexivity|]. cbn [uniform_pos]. rewrite (Z c) by lia.
  apply IH. intros i I. apply Z. lia.
Qed.
End Test.

(** The hypotheses are met: 0, 1/2, 0, 0, 1/2, 1/2, ... *)
Definition halves (i : nat) : double := match i with 1 => dhalf | 0 | 2 | 3 => dzero | _ => dhalf end%nat.
Example C155_ex : uniform_stream halves /\ gives halves 0 5 2 /\ gives halves 2 3 1 /\
  positive (drawn halves 0 5) = [dhalf; dhalf] /\
  rgb_kstest_test 6 (fun x _ => x) (fun x => x) (fun l => l) 3 halves 1 2 = Ok (dhalf, 5%nat) /\
  rgb_kstest_test 6 (fun x _ => x) (fun x => x) (fun l => l) 0 halves 1 0 = Ok (dhalf, 2%nat).
Proof.
  assert (Vh : B2R dhalf = / 2) by (unfold dhalf; cbn; unfold F2R; cbn; lra).
  split; [|split; [|split; [|split; [|split]]]]; try reflexivity.
  - intro i. destruct i as [|[|[|[|i]]]]; cbn [halves]; (split; [reflexivity|]); try rewrite Vh; cbn; lra.
  - split; [reflexivity|]. intros j J. destruct j as [|[|[|[|[|j]]]]]; cbn; lia.
  - split; [reflexivity|]. intros j J. destruct j as [|[|[|j]]]; cbn; lia.
Qed.

Print Assumptions C155_draws.
Print Assumptions C155_distance.
Print Assumptions C155_kuiper.
Print Assumptions C155_order.
Print Assumptions C155_one.
Print Assumptions C155_many_refuted.
Print Assumptions C155_many_kuiper_refuted.
Print Assumptions C155_zeros_refuted.
