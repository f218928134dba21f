(** C94: the starting value limits the result; C93; concrete cases of C44. *)
From Coq Require Import ZArith Bool Reals Lra Lia List Permutation Sorted.
From Flocq Require Import Core IEEE754.BinarySingleNaN.
From Verif Require Import SphereModel SphereSpec DoubleLemmas DoubleLemmas2 DoubleLemmas3 SphereLemmas SphereLemmas2 PropSphere PropSphere2 BaseLemmas.
Import ListNotations.
Open Scope R_scope.

(** ** Far points *)
Lemma far srt dim f u n (m : double) : sorts_points srt -> (1 <= dim <= 5)%nat ->
  (forall i, in_range (f (u i))) -> is_finite m = true -> 0 <= B2R m ->
  (forall a b, two_of (points_of dim f u n) a b -> B2R m < exact_distance a b * (1 - / 2 ^ 49)) ->
  exists points, new_points n dim f u 0 = Ok points /\ sweep dim (srt points) m = Ok m.
Proof.
  intros S D R Fm Pm Q. eexists. pose proof (new_points_ok dim f u ltac:(lia) n 0) as E. rewrite Nat.mul_0_l in E.
  fold (points_of dim f u n) in E. pose proof (points_fine dim f u n R) as Fl.
  destruct (sorted_points srt dim _ S ltac:(lia) Fl) as (l' & E' & P & Fl' & So).
  destruct (sweep_ok dim D l' m Fl' So Fm Pm) as (r & X & K).
  apply (smallest_perm dim) with (l' := points_of dim f u n) in K; auto using Permutation_sym.
  split; [exact E|]. rewrite E', X. f_equal. destruct K as (_ & (_ & U) & [->|(a & b & T & ->)] & _); [reflexivity|exfalso].
  specialize (Q _ _ T). destruct (two_of_In _ _ _ T) as (Ia & Ib). rewrite Forall_forall in Fl.
  destruct (Fl a Ia) as (La & Ra). destruct (Fl b Ib) as (Lb & Rb).
  destruct (dist_ok a b) as (_ & _ & L & _); auto; try congruence; try lia. lra.
Qed.
Definition tiny32 : double := @B754_finite 53 1024 false 4503599627370496 (-84) eq_refl.
Lemma tiny_val : B2R tiny32 = / 4294967296. Proof. unfold B2R, tiny32, F2R. cbn. lra. Qed.
Lemma one_val : B2R DoubleModel.done = 1. Proof. unfold B2R, DoubleModel.done, F2R. cbn. lra. Qed.
(** The first point is near one corner of the square, the second at the opposite corner. *)
Definition corners (i : nat) : double := if (i <? 2)%nat then tiny32 else DoubleModel.done.
Lemma bpow60 : bpow radix2 (-60) = / 1152921504606846976. Proof. reflexivity. Qed.
Lemma corners_unit : unit_stream corners.
Proof.
  intro i. unfold corners. rewrite bpow60. destruct (i <? 2)%nat; (split; [reflexivity|]); [rewrite tiny_val|rewrite one_val]; lra.
Qed.
Lemma two_of_2 {A} (x y a b : A) : two_of [x; y] a b -> a = x /\ b = y.
Proof.
  rewrite !two_of_cons. intros [(-> & [<-|[]])|[(_ & [])|T]]; auto. destruct (two_of_nil _ _ T).
Qed.
(** With two points further apart than the side of the square, the result is
    the side of the square: both tests take the side as starting value. *)
Theorem C94_start_refuted : exists u, unit_stream u /\ forall heapsort fischler dexp, sorts_points heapsort ->
  (rgb_minimum_distance heapsort fischler 2 2 u = Ok (DoubleModel.done, fischler 2%nat 2%nat DoubleModel.done) /\
   forall a b, two_of (points_of 2 (fun x => x) u 2) a b -> 1.4 < exact_distance a b) /\
  (exists p, diehard_2dsphere heapsort dexp 2 u = Ok (d10000, p)) /\
  (forall a b, two_of (points_of 2 (fun x => dmul x d10000) u 2) a b -> 14000 < exact_distance a b).
Proof.
  exists corners. split; [exact corners_unit|]. intros srt fi ex S.
  destruct d10000_val as (F & V).
  assert (P1 : forall a b, two_of (points_of 2 (fun x => x) corners 2) a b -> 1.4 < exact_distance a b).
  { intros a b T. change (points_of 2 (fun x => x) corners 2) with [[tiny32; tiny32]; [DoubleModel.done; DoubleModel.done]] in T.
    apply two_of_2 in T. destruct T as (-> & ->). unfold exact_distance. cbn [sum_squares]. rewrite tiny_val, one_val.
    rewrite <- (sqrt_square 1.4) by lra. apply sqrt_lt_1_alt. lra. }
  assert (Q1 : B2R (dmul tiny32 d10000) <= 1).
  { destruct (dmul_val tiny32 d10000) as (_ & W); [reflexivity|exact F| |].
    - rewrite tiny_val, V. apply moderate_le. lra.
    - rewrite W, tiny_val, V. apply Rle_trans with (rnd (B2R DoubleModel.done)); [apply rnd_le; rewrite one_val; lra|rewrite rnd_double, one_val; lra]. }
  assert (Q0 : 0 <= B2R (dmul tiny32 d10000)).
  { destruct (dmul_val tiny32 d10000) as (_ & W); [reflexivity|exact F| |].
    - rewrite tiny_val, V. apply moderate_le. lra.
    - rewrite W, tiny_val, V. rewrite <- rnd_zero. apply rnd_le. lra. }
  assert (Q2 : B2R (dmul DoubleModel.done d10000) = 10000).
  { destruct (dmul_val DoubleModel.done d10000) as (_ & W); [reflexivity|exact F| |].
    - rewrite one_val, V. apply moderate_le. lra.
    - rewrite W, one_val, Rmult_1_l, <- V. apply rnd_double. }
  assert (P2 : forall a b, two_of (points_of 2 (fun x => dmul x d10000) corners 2) a b -> 14000 < exact_distance a b).
  { intros a b T. remember (fun x => dmul x d10000) as f eqn:Ef.
    change (points_of 2 f corners 2) with [[f tiny32; f tiny32]; [f DoubleModel.done; f DoubleModel.done]] in T.
    apply two_of_2 in T. destruct T as (-> & ->). unfold exact_distance. cbn [sum_squares]. subst f. cbv beta. rewrite Q2.
    set (t := B2R (dmul tiny32 d10000)) in *. clearbody t.
    rewrite <- (sqrt_square 14000) by lra. apply sqrt_lt_1_alt. nra. }
  split; [split; [|exact P1]|split; [|exact P2]].
  - destruct (far srt 2 (fun x => x) corners 2 DoubleModel.done S) as (pts & E & X); auto; try lia.
    + intro i. destruct (corners_unit i) as (Fi & L & U). split; [exact Fi|]. rewrite two30. split; [|lra].
      apply Rle_trans with (2 := L). apply bpow_le. lia.
    + rewrite one_val. lra.
    + intros a b T. specialize (P1 a b T). rewrite one_val. assert (1.4 * (1 - / 2 ^ 49) <= exact_distance a b * (1 - / 2 ^ 49)).
      { apply Rmult_le_compat_r; [cbn [pow]|]; lra. } cbn [pow] in *. lra.
    + unfold rgb_minimum_distance. rewrite E. cbn [bind]. rewrite X. reflexivity.
  - destruct (far srt 2 (fun x => dmul x d10000) corners 2 d10000 S) as (pts & E & X); auto; try lia.
    + intro i. destruct (corners_unit i) as (Fi & Bi). apply (scaled d10000 (corners i) 10000); auto; lia.
    + lra.
    + intros a b T. specialize (P2 a b T). rewrite V. assert (14000 * (1 - / 2 ^ 49) <= exact_distance a b * (1 - / 2 ^ 49)).
      { apply Rmult_le_compat_r; [cbn [pow]|]; lra. } cbn [pow] in *. lra.
    + eexists. unfold diehard_2dsphere. rewrite E. cbn [bind]. rewrite X. reflexivity.
Qed.
Print Assumptions C94_start_refuted.

(** ** C93: the dimension *)
Lemma set_nth_len {A} : forall (l : list A) n a, length (set_nth l n a) = length l.
Proof. induction l as [|x l IH]; intros [|n] a; cbn; auto. Qed.
Lemma new_point_ub : forall n d f u c p, length p = 5%nat -> (0 <= d <= 5)%Z -> (5 < d + Z.of_nat n)%Z -> exists w, new_point n d f u c p = UB w.
Proof.
  induction n as [|n IH]; intros d f u c p L D N; [lia|]. cbn [new_point]. unfold aset.
  replace (d <? 0)%Z with false by (symmetry; apply Z.ltb_ge; lia).
  destruct (Nat.ltb_spec (Z.to_nat d) (length p)); [|eexists; reflexivity]. cbn [bind].
  apply IH; [now rewrite set_nth_len|lia|lia].
Qed.
(** A dimension above 5 makes the test write outside its points; dimension 0,
    the default, makes it read coordinates it has never set. *)
Theorem C93_dimension_refuted :
  (forall heapsort fischler ntuple tsamples u, (5 < ntuple)%nat -> (1 <= tsamples)%nat ->
    exists w, rgb_minimum_distance heapsort fischler ntuple tsamples u = UB w) /\
  (forall heapsort fischler tsamples u, (forall l, Permutation l (heapsort l)) -> (2 <= tsamples)%nat ->
    exists w, rgb_minimum_distance heapsort fischler 0 tsamples u = UB w).
Proof.
  split.
  - intros srt fi dim n u D N. unfold rgb_minimum_distance. destruct n as [|n]; [lia|]. cbn [new_points].
    destruct (new_point_ub dim 0 (fun x => x) u 0 (repeat None 5)) as (w & E); [reflexivity|lia|lia|].
    rewrite E. eexists. reflexivity.
  - intros srt fi n u P N. unfold rgb_minimum_distance.
    pose proof (new_points_ok 0 (fun x => x) u ltac:(lia) n 0) as E. cbn [Nat.mul] in E. rewrite E. cbn [bind].
    set (l := map point_of _). assert (Q : Forall (fun p => p = repeat None 5) (srt l)).
    { apply Forall_forall. intros p I. apply (Permutation_in _ (Permutation_sym (P l))) in I.
      unfold l in I. rewrite map_map in I. apply in_map_iff in I. destruct I as (t & <- & _). reflexivity. }
    assert (L : length (srt l) = n).
    { rewrite <- (Permutation_length (P l)). unfold l. now rewrite !map_length, seq_length. }
    destruct (srt l) as [|p [|q r]]; cbn [length] in L; try lia.
    inversion Q as [|? ? Ep Q']; inversion Q' as [|? ? Eq Q'']; subst. cbn. eexists. reflexivity.
Qed.
Print Assumptions C93_dimension_refuted.
(** Every dimension from 1 to 5 is safe, for any number of points. *)
Theorem C93_safe : forall heapsort fischler ntuple tsamples u, sorts_points heapsort -> unit_stream u -> (1 <= ntuple <= 5)%nat ->
  exists r, rgb_minimum_distance heapsort fischler ntuple tsamples u = Ok r.
Proof.
  intros srt fi dim n u S U D.
  assert (R : forall i, in_range (u i)).
  { intro i. destruct (U i) as (F & L & H). split; [exact F|]. split.
    - apply Rle_trans with (2 := L). apply bpow_le. lia.
    - rewrite two30. lra. }
  pose proof (new_points_ok dim (fun x => x) u ltac:(lia) n 0) as E. rewrite Nat.mul_0_l in E.
  fold (points_of dim (fun x => x) u n) in E. pose proof (points_fine dim (fun x => x) u n R) as Fl.
  destruct (sorted_points srt dim _ S ltac:(lia) Fl) as (l' & E' & P & Fl' & So).
  destruct (sweep_ok dim D l' DoubleModel.done Fl' So eq_refl) as (r & X & K). { rewrite one_val. lra. }
  unfold rgb_minimum_distance. rewrite E. cbn [bind]. rewrite E', X. cbn [bind]. eexists.
  destruct dim as [|[|[|[|[|[|d]]]]]]; try lia; reflexivity.
Qed.
Print Assumptions C93_safe.

(** ** Concrete cases *)
(** A sorting function that keeps the promise. *)
Fixpoint insert (a : dpoint) (l : list dpoint) : list dpoint :=
  match l with
  | [] => [a]
  | b :: l' => match compare_points a b with
               | Ok c => if (c <=? 0)%Z then a :: l else b :: insert a l'
               | _ => a :: l
               end
  end.
Definition isort (l : list dpoint) : list dpoint := fold_right insert [] l.
Lemma compare_iff a b x y : read a 0 = Ok x -> read b 0 = Ok y -> in_range x -> in_range y ->
  exists c, compare_points a b = Ok c /\ ((c <= 0)%Z <-> B2R x <= B2R y).
Proof.
  intros Ea Eb Hx Hy. unfold compare_points. rewrite Ea, Eb. cbn [bind]. eexists. split; [reflexivity|].
  destruct (delta_val x y Hx Hy) as (F & V & _).
  unfold dgt. change (Bltb dzero (dsub x y)) with (dlt dzero (dsub x y)).
  rewrite (fin_lt dzero) by (reflexivity || exact F). rewrite (fin_lt _ dzero) by (reflexivity || exact F).
  change (B2R dzero) with 0. destruct (Rle_or_lt (B2R x) (B2R y)) as [H|H].
  - assert (B2R (dsub x y) <= 0). { rewrite V, <- rnd_zero. apply rnd_le. lra. }
    rewrite Rlt_bool_false by assumption. destruct (Rlt_bool _ 0); split; intros; lia || lra.
  - assert (0 < B2R (dsub x y)).
    { rewrite V. apply Rlt_le_trans with (bpow radix2 (-117)); [apply bpow_gt_0|].
      rewrite <- (rnd_bpow (-117)) by lia. apply rnd_le. apply gap; [apply Hy|exact H]. }
    rewrite Rlt_bool_true by assumption. split; intros; lia || lra.
Qed.
Lemma insert_perm a : forall l, Permutation (a :: l) (insert a l).
Proof.
  induction l as [|b l IH]; cbn [insert]; [auto|]. destruct (compare_points a b) as [c| | |]; auto.
  destruct (c <=? 0)%Z; auto. eapply Permutation_trans; [apply perm_swap|]. constructor. exact IH.
Qed.
Lemma isort_sorts : sorts_points isort.
Proof.
  intros l H. assert (P : forall l, Permutation l (isort l)).
  { clear. induction l as [|a l IH]; cbn [isort fold_right]; [auto|]. fold (isort l).
    eapply Permutation_trans; [|apply insert_perm]. now constructor. }
  split; [apply P|].
  set (ok := fun p => exists x, read p 0 = Ok x /\ in_range x) in *.
  set (R := fun a b => exists c, compare_points a b = Ok c /\ (c <= 0)%Z).
  assert (I : forall a l, ok a -> Forall ok l -> StronglySorted R l -> StronglySorted R (insert a l)).
  { clear. intros a. induction l as [|b l IH]; intros Ha Hl So; cbn [insert]; [repeat constructor|].
    inversion Hl as [|? ? Hb Hl']; inversion So as [|? ? So' A]; subst.
    destruct Ha as (x & Ex & Rx). destruct Hb as (y & Ey & Ry).
    destruct (compare_iff a b x y Ex Ey Rx Ry) as (c & E & C). rewrite E. destruct (Z.leb_spec c 0) as [L|L].
    - constructor; [exact So|]. constructor; [exists c; auto|]. rewrite Forall_forall in *. intros d Id.
      destruct (Hl' d Id) as (z & Ez & Rz). destruct (A d Id) as (c2 & E2 & L2).
      destruct (compare_iff b d y z Ey Ez Ry Rz) as (c2' & E2' & C2). destruct (compare_iff a d x z Ex Ez Rx Rz) as (c3 & E3 & C3).
      exists c3. split; [exact E3|]. apply C3. apply C in L. assert (B2R y <= B2R z) by (apply C2; congruence || (assert (c2' = c2) by congruence; lia)). lra.
    - constructor; [apply IH; auto; exists x; auto|].
      assert (Q : R b a).
      { destruct (compare_iff b a y x Ey Ex Ry Rx) as (c2 & E2 & C2). exists c2. split; [exact E2|]. apply C2.
        apply Rnot_lt_le. intro N. assert (c <= 0)%Z by (apply C; lra). lia. }
      rewrite Forall_forall in *. intros d Id. apply (Permutation_in _ (Permutation_sym (insert_perm a l))) in Id.
      destruct Id as [<-|Id]; auto. }
  induction l as [|a l IH]; cbn [isort fold_right]; [constructor|]. fold (isort l). inversion H; subst. apply I; auto.
  rewrite Forall_forall in *. intros p Ip. apply H3. eapply Permutation_in; [apply Permutation_sym, P|exact Ip].
Qed.
(** Five points of the plane: the closest two, (1,2) and (4,6), have distance 5. *)
Example sweep_example :
  let z := d_of_Z in
  let pts := map point_of [[z 50; z 1]; [z 4; z 6]; [z 30; z 30]; [z 1; z 2]; [z 2; z 90]]%Z in
  match sweep 2 (isort pts) d10000 with Ok r => deq r (z 5%Z) | _ => false end = true.
Proof. vm_compute. reflexivity. Qed.
(** The hypotheses of [C44_rgb] and [C44_2d] are met. *)
Example rgb_example : exists r, rgb_minimum_distance isort (fun _ _ m => m) 3 28 corners = Ok r.
Proof. destruct (C44_rgb isort (fun _ _ m => m) 3 28 corners isort_sorts corners_unit) as (m & E & _); [lia|cbn; lia|eauto]. Qed.
Example d2_example : exists r, diehard_2dsphere isort (fun x => x) (N.to_nat 8000) corners = Ok r.
Proof. destruct (C44_2d isort (fun x => x) (N.to_nat 8000) corners isort_sorts corners_unit) as (m & p & E & _); [lia|]. eauto. Qed.
