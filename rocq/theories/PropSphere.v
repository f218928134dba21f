(** C44: the minimum-distance tests find the least distance; C93: the
    dimensions rgb_minimum_distance can be run with. *)
From Coq Require Import ZArith Bool Reals Lra Lia List Permutation Sorted.
From Flocq Require Import Core IEEE754.BinarySingleNaN.
From Verif Require Import SphereModel SphereSpec DoubleLemmas DoubleLemmas2 DoubleLemmas3 SphereLemmas SphereLemmas2 BaseLemmas.
Import ListNotations.
Open Scope R_scope.

(** The sweep with its early exit returns what comparing all pairs of the
    unsorted points returns, for every starting value. *)
Theorem C44_all_pairs : forall heapsort dim l m, sorts_points heapsort -> (1 <= dim <= 5)%nat ->
  Forall (fun xs => length xs = dim /\ Forall in_range xs) l -> is_finite m = true -> 0 <= B2R m ->
  exists r r', sweep dim (heapsort (map point_of l)) m = Ok r /\ all_pairs dim (map point_of l) m = Ok r' /\
    is_finite r = true /\ is_finite r' = true /\ B2R r = B2R r'.
Proof.
  intros srt dim l m S D Fl Fm Pm.
  destruct (sorted_points srt dim l S ltac:(lia) Fl) as (l' & E & P & Fl' & So).
  destruct (sweep_ok dim D l' m Fl' So Fm Pm) as (r & R & K).
  destruct (all_pairs_ok dim ltac:(lia) l m Fl Fm Pm) as (r' & R' & K').
  apply (smallest_perm dim) with (l' := l) in K; auto using Permutation_sym.
  exists r, r'. rewrite E. repeat split; auto; [apply K|apply K'|]. eapply smallest_val; eassumption.
Qed.
Print Assumptions C44_all_pairs.

(** ** The points *)
Lemma aset_app {A} (l r : list A) x y : aset (l ++ x :: r) (Z.of_nat (length l)) y = Ok (l ++ y :: r).
Proof.
  unfold aset. replace (Z.of_nat (length l) <? 0)%Z with false by (symmetry; apply Z.ltb_ge; lia).
  rewrite Nat2Z.id. replace (length l <? length (l ++ x :: r))%nat with true by (symmetry; apply Nat.ltb_lt; rewrite app_length; cbn; lia).
  f_equal. induction l as [|a l IH]; cbn; [reflexivity|]. now rewrite IH.
Qed.
Lemma new_point_ok : forall n pre f u c k, k = (n + length pre)%nat -> (k <= 5)%nat ->
  new_point n (Z.of_nat (length pre)) f u c (map Some pre ++ repeat None (5 - length pre)) =
  Ok (map Some (pre ++ map (fun d => f (u (c + d)%nat)) (seq 0 n)) ++ repeat None (5 - k)).
Proof.
  induction n as [|n IH]; intros pre f u c k E K; cbn [new_point].
  - cbn [seq map]. rewrite app_nil_r, E. reflexivity.
  - replace (5 - length pre)%nat with (S (5 - S (length pre)))%nat by lia. cbn [repeat].
    replace (Z.of_nat (length pre)) with (Z.of_nat (length (map (@Some double) pre))) by now rewrite map_length.
    rewrite aset_app, map_length. cbn [bind].
    replace (map Some pre ++ Some (f (u c)) :: repeat None (5 - S (length pre)))
      with (map Some (pre ++ [f (u c)]) ++ repeat None (5 - length (pre ++ [f (u c)])))
      by (rewrite map_app, <- app_assoc, app_length; cbn [map app length]; do 4 f_equal; lia).
    replace (Z.of_nat (length pre) + 1)%Z with (Z.of_nat (length (pre ++ [f (u c)]))) by (rewrite app_length; cbn; lia).
    rewrite (IH _ _ _ _ k) by (rewrite ?app_length; cbn; lia). do 3 f_equal.
    rewrite <- app_assoc. f_equal. cbn [app seq map]. rewrite Nat.add_0_r. f_equal.
    rewrite <- seq_shift, map_map. apply map_ext. intro d. do 2 f_equal. lia.
Qed.
Lemma new_points_ok dim f u : (dim <= 5)%nat -> forall n t,
  new_points n dim f u (t * dim) = Ok (map point_of (map (fun t => map (fun d => f (u (t * dim + d)%nat)) (seq 0 dim)) (seq t n))).
Proof.
  intro D. induction n as [|n IH]; intro t; cbn [new_points seq map]; [reflexivity|].
  pose proof (new_point_ok dim [] f u (t * dim) dim ltac:(cbn; lia) D) as E.
  change (new_point dim 0 f u (t * dim) (repeat None 5) = Ok (map Some (map (fun d => f (u (t * dim + d)%nat)) (seq 0 dim)) ++ repeat None (5 - dim))) in E.
  rewrite E. cbn [bind app].
  replace (t * dim + dim)%nat with (S t * dim)%nat by lia. rewrite IH. cbn [bind]. do 2 f_equal.
  unfold point_of. rewrite map_length, seq_length. reflexivity.
Qed.
Lemma points_fine dim f u n : (forall i, in_range (f (u i))) -> Forall (fine dim) (points_of dim f u n).
Proof.
  intro H. apply Forall_forall. intros xs I. apply in_map_iff in I. destruct I as (t & <- & _). split.
  - now rewrite map_length, seq_length.
  - apply Forall_forall. intros x I. apply in_map_iff in I. destruct I as (d & <- & _). apply H.
Qed.

(** ** Some two points are close *)
Lemma repetition {A} (dec : forall a b : A, {a = b} + {a <> b}) (l : list A) : ~ NoDup l -> exists a, two_of l a a.
Proof.
  induction l as [|a l IH]; intro H; [destruct H; constructor|].
  destruct (in_dec dec a l) as [I|I].
  - exists a. apply two_of_cons. auto.
  - destruct IH as (b & B); [intro N; apply H; now constructor|]. exists b. apply two_of_cons. auto.
Qed.
Lemma two_of_map {A B} (f : A -> B) l x y : two_of (map f l) x y -> exists a b, two_of l a b /\ f a = x /\ f b = y.
Proof.
  intros (i & j & L & Hi & Hj). rewrite nth_error_map in Hi, Hj.
  destruct (nth_error l i) eqn:Ei; [|discriminate]. destruct (nth_error l j) eqn:Ej; [|discriminate].
  cbn in *. injection Hi as <-. injection Hj as <-. exists a, a0. repeat split; auto. exists i, j. auto.
Qed.
Lemma pigeonhole {A B} (dec : forall a b : B, {a = b} + {a <> b}) (f : A -> B) (cells : list B) l :
  (forall a, In a l -> In (f a) cells) -> (length cells < length l)%nat -> exists a b, two_of l a b /\ f a = f b.
Proof.
  intros H L. destruct (repetition dec (map f l)) as (x & X).
  - intro N. assert (length (map f l) <= length cells)%nat; [|rewrite map_length in *; lia].
    apply NoDup_incl_length; [exact N|]. intros y Y. apply in_map_iff in Y. destruct Y as (a & <- & I). auto.
  - destruct (two_of_map _ _ _ _ X) as (a & b & T & <- & E). exists a, b. auto.
Qed.
(** a third of the side of the cube *)
Definition third (s x : R) : nat := if Rle_dec x (s / 3) then 0%nat else if Rle_dec x (2 * s / 3) then 1%nat else 2%nat.
Fixpoint boxes (dim : nat) : list (list nat) :=
  match dim with O => [[]] | S d => flat_map (fun b => [0 :: b; 1 :: b; 2 :: b])%nat (boxes d) end.
Lemma boxes_length : forall dim, length (boxes dim) = (3 ^ dim)%nat.
Proof.
  induction dim as [|d IH]; [reflexivity|]. cbn [boxes Nat.pow]. rewrite <- IH. clear.
  induction (boxes d) as [|b l IH]; [reflexivity|]. cbn [flat_map app length]. lia.
Qed.
Lemma boxes_in s : forall xs, In (map (fun x : double => third s (B2R x)) xs : list nat) (boxes (length xs)).
Proof.
  induction xs as [|x xs IH]; [now left|]. cbn [length boxes map]. apply in_flat_map.
  eexists. split; [exact IH|]. unfold third at 1 3 5.
  cbn [In]. destruct (Rle_dec _ _); [auto|]. destruct (Rle_dec _ _); auto.
Qed.
Lemma third_close s (x y : double) : 0 <= B2R x <= s -> 0 <= B2R y <= s -> third s (B2R x) = third s (B2R y) ->
  (B2R x - B2R y) * (B2R x - B2R y) <= s * s / 9.
Proof.
  unfold third. intros Hx Hy E.
  assert (- (s / 3) <= B2R x - B2R y <= s / 3).
  { repeat destruct (Rle_dec _ _) in E; try discriminate; lra. }
  replace (s * s / 9) with (s / 3 * (s / 3)) by lra.
  set (d := B2R x - B2R y) in *. clearbody d. assert (0 <= s / 3) by lra. set (t := s / 3) in *. clearbody t. nra.
Qed.
Lemma box_close s : forall xs ys, length xs = length ys ->
  Forall (fun x : double => 0 <= B2R x <= s) xs -> Forall (fun x : double => 0 <= B2R x <= s) ys ->
  map (fun x : double => third s (B2R x)) xs = map (fun x : double => third s (B2R x)) ys ->
  sum_squares xs ys <= INR (length xs) * (s * s / 9).
Proof.
  induction xs as [|x xs IH]; intros [|y ys] L Hx Hy E; try discriminate.
  - cbn. lra.
  - inversion Hx; inversion Hy; subst. cbn [map] in E. injection E as E1 E2. cbn [length sum_squares]. rewrite S_INR.
    assert (L' : length xs = length ys) by (cbn in L; lia).
    pose proof (third_close s x y H1 H5 E1). pose proof (IH ys L' H2 H6 E2). lra.
Qed.
Lemma two_close s dim l : (dim <= 5)%nat -> 0 < s -> Forall (fun xs => length xs = dim /\ Forall (fun x : double => 0 <= B2R x <= s) xs) l ->
  (3 ^ dim < length l)%nat -> exists a b, two_of l a b /\ exact_distance a b <= s * (3 / 4).
Proof.
  intros D P Fl L.
  destruct (pigeonhole (list_eq_dec Nat.eq_dec) (map (fun x : double => third s (B2R x))) (boxes dim) l) as (a & b & T & E).
  - intros a I. rewrite Forall_forall in Fl. destruct (Fl a I) as (<- & _). apply boxes_in.
  - now rewrite boxes_length.
  - exists a, b. split; [exact T|]. destruct (two_of_In _ _ _ T) as (Ia & Ib). rewrite Forall_forall in Fl.
    destruct (Fl a Ia) as (La & Ra). destruct (Fl b Ib) as (Lb & Rb).
    pose proof (box_close s a b ltac:(congruence) Ra Rb E) as C. unfold exact_distance.
    rewrite <- (sqrt_square (s * (3 / 4))) by lra. apply sqrt_le_1_alt. apply Rle_trans with (1 := C).
    assert (INR (length a) <= 5). { replace 5 with (INR 5) by (cbn; lra). apply le_INR. lia. }
    apply Rle_trans with (5 * (s * s / 9)); [|nra]. apply Rmult_le_compat_r; [nra|assumption].
Qed.
(** The least rounded distance is the least exact distance up to the error bound. *)
Lemma smallest_least dim l m r : (dim <= 5)%nat -> Forall (fine dim) l -> smallest l m r ->
  (exists a b, two_of l a b /\ exact_distance a b * (1 + / 2 ^ 49) < B2R m) -> least_distance l r.
Proof.
  intros D Fl (F & (P & U) & W & A) (a & b & T & C).
  assert (Q : forall a b, two_of l a b -> exact_distance a b * (1 - / 2 ^ 49) <= B2R (dist a b) <= exact_distance a b * (1 + / 2 ^ 49)).
  { intros x y H. destruct (two_of_In _ _ _ H) as (Ix & Iy). rewrite Forall_forall in Fl.
    destruct (Fl x Ix) as (Lx & Rx). destruct (Fl y Iy) as (Ly & Ry). apply dist_ok; auto; congruence || lia. }
  split; [exact F|]. split.
  - intros x y H. apply Rle_trans with (1 := A _ _ H). apply (Q _ _ H).
  - destruct W as [->|(x & y & H & ->)].
    + exfalso. specialize (A _ _ T). pose proof (Q _ _ T). lra.
    + exists x, y. split; [exact H|]. apply (Q _ _ H).
Qed.
Lemma pow49 : 1 + / 2 ^ 49 < 4 / 3. Proof. assert (/ 2 ^ 49 < 1 / 3) by (cbn [pow]; lra). lra. Qed.
Lemma test_ok srt dim f u n s (m : double) : sorts_points srt -> (1 <= dim <= 5)%nat ->
  (forall i, in_range (f (u i))) -> (forall i, B2R (f (u i)) <= s) -> is_finite m = true -> B2R m = s -> 0 < s ->
  (3 ^ dim < n)%nat ->
  exists points r, new_points n dim f u 0 = Ok points /\ sweep dim (srt points) m = Ok r /\ least_distance (points_of dim f u n) r.
Proof.
  intros S D R B Fm Vm Ps N. eexists. pose proof (new_points_ok dim f u ltac:(lia) n 0) as E. rewrite Nat.mul_0_l in E.
  fold (points_of dim f u n) in E. pose proof (points_fine dim f u n R) as Fl.
  destruct (sorted_points srt dim _ S ltac:(lia) Fl) as (l' & E' & P & Fl' & So).
  destruct (sweep_ok dim D l' m Fl' So Fm ltac:(lra)) as (r & Q & K).
  apply (smallest_perm dim) with (l' := points_of dim f u n) in K; auto using Permutation_sym.
  exists r. split; [exact E|]. rewrite E'. split; [exact Q|]. apply (smallest_least dim) with (m := m); auto; [lia|].
  destruct (two_close s dim (points_of dim f u n)) as (a & b & T & C); auto; try lia.
  - apply Forall_forall. intros xs I. apply in_map_iff in I. destruct I as (t & <- & _). split.
    + now rewrite map_length, seq_length.
    + apply Forall_forall. intros x I. apply in_map_iff in I. destruct I as (d & <- & _). split; [|apply B].
      destruct (R (t * dim + d)%nat) as (_ & L & _). pose proof (bpow_gt_0 radix2 (-64)). lra.
  - unfold points_of. rewrite map_length, seq_length. exact N.
  - exists a, b. split; [exact T|]. rewrite Vm. pose proof pow49.
    apply Rle_lt_trans with (s * (3 / 4) * (1 + / 2 ^ 49)); [|nra].
    apply Rmult_le_compat_r; [|exact C]. cbn [pow]. lra.
Qed.

(** rgb_minimum_distance finds the least distance of the points whose
    coordinates are the numbers of the generator, in each dimension from 1 to
    5, as soon as there are more than 3^dimension points. *)
Theorem C44_rgb : forall heapsort fischler ntuple tsamples u, sorts_points heapsort -> unit_stream u ->
  (1 <= ntuple <= 5)%nat -> (3 ^ ntuple < tsamples)%nat ->
  exists mindist, rgb_minimum_distance heapsort fischler ntuple tsamples u = Ok (mindist, fischler ntuple tsamples mindist) /\
    least_distance (points_of ntuple (fun x => x) u tsamples) mindist.
Proof.
  intros srt fi dim n u S U D N.
  assert (R : forall i, in_range (u i)).
  { intro i. destruct (U i) as (F & L & H). split; [exact F|]. split.
    - apply Rle_trans with (2 := L). apply bpow_le. lia.
    - rewrite two30. lra. }
  destruct (test_ok srt dim (fun x => x) u n 1 DoubleModel.done S D) as (pts & r & E & Q & K); auto.
  - intro i. apply (U i).
  - cbn. unfold F2R. cbn. lra.
  - lra.
  - exists r. unfold rgb_minimum_distance. rewrite E. cbn [bind]. rewrite Q. cbn [bind]. split; [|exact K].
    destruct dim as [|[|[|[|[|[|d]]]]]]; try lia; reflexivity.
Qed.
Print Assumptions C44_rgb.

Lemma d10000_val : is_finite d10000 = true /\ B2R d10000 = 10000.
Proof. split; apply (d_of_Z_val 10000); lia. Qed.
Lemma d1000_val : is_finite d1000 = true /\ B2R d1000 = 1000.
Proof. split; apply (d_of_Z_val 1000); lia. Qed.
Lemma d2000_val : is_finite d2000 = true /\ B2R d2000 = 2000.
Proof. split; apply (d_of_Z_val 2000); lia. Qed.
Lemma scaled (k x : double) z : is_finite k = true -> B2R k = IZR z -> (1 <= z <= 1048576)%Z ->
  is_finite x = true -> bpow radix2 (-60) <= B2R x <= 1 ->
  is_finite (dmul x k) = true /\ is_finite (dmul k x) = true /\ B2R (dmul k x) = B2R (dmul x k) /\
  in_range (dmul x k) /\ B2R (dmul x k) <= B2R k.
Proof.
  intros Fk Vk Z Fx (L & U). pose proof (bpow_gt_0 radix2 (-60)) as P.
  assert (Z1 : 1 <= B2R k <= 1048576) by (rewrite Vk; split; apply IZR_le; lia).
  assert (B : B2R x * B2R k <= B2R k) by nra. assert (B0 : bpow radix2 (-60) <= B2R x * B2R k) by nra.
  destruct (dmul_val x k Fx Fk) as (F1 & V1). { apply moderate_le. lra. }
  destruct (dmul_val k x Fk Fx) as (F2 & V2). { apply moderate_le. lra. }
  assert (V : B2R (dmul x k) <= B2R k). { rewrite V1. rewrite <- (rnd_double k) at 2. apply rnd_le. exact B. }
  repeat split; auto.
  - rewrite V1, V2. f_equal. ring.
  - apply Rle_trans with (bpow radix2 (-60)); [apply bpow_le; lia|]. rewrite V1.
    rewrite <- (rnd_bpow (-60)) by lia. apply rnd_le. exact B0.
  - rewrite two30. lra.
Qed.
(** diehard_2dsphere finds the least distance of the points whose coordinates
    are the numbers of the generator times 10000, as soon as there are ten. *)
Theorem C44_2d : forall heapsort dexp tsamples u, sorts_points heapsort -> unit_stream u -> (10 <= tsamples)%nat ->
  exists mindist p, diehard_2dsphere heapsort dexp tsamples u = Ok (mindist, p) /\
    least_distance (points_of 2 (fun x => dmul x d10000) u tsamples) mindist /\
    p = dsub DoubleModel.done (dexp (ddiv (dmul (dopp mindist) mindist) (d_lit 995 1000))).
Proof.
  intros srt ex n u S U N. destruct d10000_val as (F & V).
  destruct (test_ok srt 2 (fun x => dmul x d10000) u n 10000 d10000 S ltac:(lia)) as (pts & r & E & Q & K); auto.
  - intro i. destruct (U i) as (Fi & Bi). apply (scaled d10000 (u i) 10000); auto; lia.
  - intro i. destruct (U i) as (Fi & Bi). rewrite <- V. apply (scaled d10000 (u i) 10000); auto; lia.
  - lra.
  - exists r. eexists. unfold diehard_2dsphere. rewrite E. cbn [bind]. rewrite Q. cbn [bind]. split; [reflexivity|]. split; [exact K|reflexivity].
Qed.
Print Assumptions C44_2d.
