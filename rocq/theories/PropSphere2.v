(** C44 for diehard_3dsphere. *)
From Coq Require Import ZArith Bool Reals Lra Lia List Permutation Sorted.
From Flocq Require Import Core IEEE754.BinarySingleNaN.
From Verif Require Import SphereModel SphereSpec DoubleLemmas DoubleLemmas2 DoubleLemmas3 SphereLemmas SphereLemmas2 PropSphere BaseLemmas.
Import ListNotations.
Open Scope R_scope.

(** ** Three dimensions *)
Definition coords (p : point3) : list double := let '(x, y, z) := p in [x; y; z].
Lemma dsq_sign x y : in_range x -> in_range y -> Bsign (dsq x y) = false.
Proof.
  intros Hx Hy. destruct (square_val x y Hx Hy) as (F & _). unfold dsq in *. set (d := dsub x y) in *.
  pose proof (Bmult_correct 53 1024 prec_ok emax_ok mode_NE d d) as C. fold (dmul d d) in C.
  destruct (Rlt_bool _ _) in C.
  - destruct C as (_ & _ & C). rewrite C; [apply xorb_nilpotent|]. now apply finite_nan.
  - exfalso. rewrite <- is_finite_SF_B2SF in F. rewrite C in F. cbn in F. discriminate.
Qed.
Lemma r2_acc p q : Forall in_range (coords p) -> Forall in_range (coords q) -> r2_of p q = acc (coords p) (coords q) dzero.
Proof.
  destruct p as ((x, y), z), q as ((x', y'), z'). cbn [coords acc r2_of]. intros Hp Hq.
  pose proof (dsq_sign x x' (Forall_inv Hp) (Forall_inv Hq)) as S. fold (dsq x x'). fold (dsq y y'). fold (dsq z z').
  replace (dadd dzero (dsq x x')) with (dsq x x'); [reflexivity|].
  destruct (dsq x x') as [s| s | |s m e B]; cbn in S; subst; reflexivity.
Qed.
Lemma r1_dist p q : Forall in_range (coords p) -> Forall in_range (coords q) -> r1_of p q = dist (coords p) (coords q).
Proof. intros Hp Hq. unfold r1_of, dist. now rewrite r2_acc. Qed.

(** The state of the search: [rmin] is the least distance so far and [r3min] belongs to a pair that has it. *)
Definition cube (a b : list double) : double := dmul (acc a b dzero) (dist a b).
Definition found (l : list (list double)) (m : double) (rmin r3min : double) : Prop :=
  smallest l m rmin /\ (rmin = m \/ exists a b, two_of l a b /\ rmin = dist a b /\ r3min = cube a b).
Lemma nearest_ok p : Forall in_range (coords p) -> forall older rmin r3min, Forall (fun q => Forall in_range (coords q)) older ->
  is_finite rmin = true -> 0 <= B2R rmin ->
  let '(r, r3) := nearest p older rmin r3min in
  is_finite r = true /\ 0 <= B2R r <= B2R rmin /\
  ((r = rmin /\ r3 = r3min) \/ exists q, In q older /\ r = dist (coords p) (coords q) /\ r3 = cube (coords p) (coords q)) /\
  (forall q, In q older -> B2R r <= B2R (dist (coords p) (coords q))).
Proof.
  intros Hp. induction older as [|q older IH]; intros m m3 Fo Fm Pm; cbn [nearest].
  { repeat split; auto; try lra. contradiction. }
  inversion Fo as [|? ? Hq Fo']; subst. rewrite (r2_acc p q), (r1_dist p q) by assumption.
  destruct (dist_fine 3 (coords p) (coords q)) as (Fe & Pe).
  { lia. } { split; [destruct p as ((?, ?), ?); reflexivity|exact Hp]. } { split; [destruct q as ((?, ?), ?); reflexivity|exact Hq]. }
  fold (cube (coords p) (coords q)). set (e := dist (coords p) (coords q)) in *.
  destruct (dlt e m) eqn:C.
  - apply lt_true in C; auto. specialize (IH e (cube (coords p) (coords q)) Fo' Fe Pe). destruct (nearest p older e _) as (r, r3).
    destruct IH as (F & P & W & A). repeat split; auto; try lra.
    + right. destruct W as [(-> & ->)|(q' & I & W)]; [exists q|exists q']; cbn [In]; auto.
    + intros q' [<-|I]; [fold e; lra|auto].
  - apply lt_false in C; auto. specialize (IH m m3 Fo' Fm Pm). destruct (nearest p older m m3) as (r, r3).
    destruct IH as (F & P & W & A). repeat split; auto; try lra.
    + destruct W as [W|(q' & I & W)]; [auto|right; exists q'; cbn [In]; auto].
    + intros q' [<-|I]; [fold e; lra|auto].
Qed.
Lemma points_3d_ok u : (forall i, in_range (dmul d1000 (u i))) -> forall n t older m rmin r3min,
  Forall (fun q => Forall in_range (coords q)) older -> found (map coords older) m rmin r3min ->
  let '(r, r3) := points_3d n u (3 * t) older rmin r3min in
  found (rev (map (fun t => map (fun d => dmul d1000 (u (t * 3 + d)%nat)) (seq 0 3)) (seq t n)) ++ map coords older) m r r3.
Proof.
  intro U. induction n as [|n IH]; intros t older m rm r3 Fo K; cbn [points_3d seq map rev app]; [exact K|].
  set (p := (dmul d1000 (u (3 * t)%nat), dmul d1000 (u (3 * t + 1)%nat), dmul d1000 (u (3 * t + 2)%nat))).
  assert (Hp : Forall in_range (coords p)) by (cbn [coords p]; auto).
  destruct K as ((F & (P & B) & W & A) & E).
  pose proof (nearest_ok p Hp older rm r3 Fo F P) as K. destruct (nearest p older rm r3) as (r', r3').
  destruct K as (F' & (P' & B') & W' & A').
  assert (K : found (map coords (p :: older)) m r' r3').
  { cbn [map]. assert (W2 : (r' = m \/ exists a b, two_of (coords p :: map coords older) a b /\ r' = dist a b /\ r3' = cube a b)).
    { destruct W' as [(-> & ->)|(q & I & -> & ->)].
      - destruct E as [->|(a & b & T & E1 & E2)]; [auto|right; exists a, b; rewrite two_of_cons; auto].
      - right. exists (coords p), (coords q). rewrite two_of_cons. split; [left; split; auto; now apply in_map|auto]. }
    split; [|exact W2]. repeat split; auto; try lra.
    - destruct W2 as [W2|(a & b & T & E1 & _)]; [auto|right; exists a, b; auto].
    - intros a b T. apply two_of_cons in T. destruct T as [(-> & I)|T].
      + apply in_map_iff in I. destruct I as (q & <- & I). auto.
      + specialize (A _ _ T). lra. }
  replace (3 * t + 3)%nat with (3 * S t)%nat by lia.
  specialize (IH (S t) (p :: older) m r' r3' (Forall_cons _ Hp Fo) K). destruct (points_3d n u (3 * S t) (p :: older) r' r3') as (r, r3f).
  rewrite <- app_assoc. cbn [app map] in *.
  replace [dmul d1000 (u (t * 3 + 0)%nat); dmul d1000 (u (t * 3 + 1)%nat); dmul d1000 (u (t * 3 + 2)%nat)] with (coords p); [exact IH|].
  cbn [coords p]. rewrite Nat.add_0_r, (Nat.mul_comm 3 t). reflexivity.
Qed.
Lemma found_perm l l' m r r3 : Forall (fine 3) l -> Permutation l l' -> found l m r r3 -> found l' m r r3.
Proof.
  intros Fl P (K & W). split; [eapply smallest_perm; eassumption|]. destruct W as [W|(a & b & T & E & E3)]; [auto|right].
  assert (In a l /\ In b l) as (Ia & Ib) by (apply two_of_In, T). rewrite Forall_forall in Fl.
  destruct (Fl a Ia) as (_ & Ra). destruct (Fl b Ib) as (_ & Rb).
  destruct (two_of_perm _ _ P _ _ T) as [Q|Q]; [exists a, b; auto|exists b, a]. split; [exact Q|]. split.
  - rewrite E. apply dist_sym; assumption.
  - rewrite E3. unfold cube. rewrite (dist_sym a b) by assumption. now rewrite (acc_sym a b) by assumption.
Qed.
Lemma near_mul j k r x s y : 0 <= r -> 0 <= s -> 0 <= x -> 0 <= y -> near j r x -> near k s y -> near (j + k) (r * s) (x * y).
Proof.
  intros R S X Y (L1 & U1) (L2 & U2). unfold near. rewrite !pow_add. pose proof (pow_m j). pose proof (pow_m k).
  set (a := (1 - eps) ^ j) in *. set (b := (1 - eps) ^ k) in *. split.
  - replace (r * s * (a * b)) with (r * a * (s * b)) by ring. apply Rmult_le_compat; auto; nra.
  - replace (r * s * ((1 + eps) ^ j * (1 + eps) ^ k)) with (r * (1 + eps) ^ j * (s * (1 + eps) ^ k)) by ring.
    apply Rmult_le_compat; auto.
Qed.
Lemma cube_ok a b : Forall in_range a -> Forall in_range b -> length a = 3%nat -> length b = 3%nat -> exact_distance a b <= 2048 ->
  let e := exact_distance a b in e ^ 3 * (1 - / 2 ^ 49) <= B2R (cube a b) <= e ^ 3 * (1 + / 2 ^ 49).
Proof.
  intros Ra Rb La Lb D. cbn zeta.
  destruct (acc_ok a b dzero 0 0 0 Ra Rb ltac:(congruence)) as (F & S & _ & A); try (cbn; lra); try lia; auto.
  { left. reflexivity. } { unfold near. cbn. lra. }
  cbn zeta in *. rewrite La, Rplus_0_l in A. cbn [Nat.add] in A.
  pose proof (sane_nonneg _ _ S) as P. destruct (dsqrt_val _ F P) as (F' & V). fold (dist a b) in F', V.
  pose proof (sum_squares_pos a b) as Q. set (v := acc a b dzero) in *. set (e := exact_distance a b) in *.
  assert (E0 : 0 <= e) by apply sqrt_pos.
  assert (E2 : sum_squares a b = e * e) by (symmetry; apply sqrt_sqrt, Q).
  assert (SS : sane (-150) (B2R (dist a b))). { rewrite V. apply rnd_sane; [lia|]. now apply sqrt_sane. }
  assert (A7 : near 7 e (B2R (dist a b))).
  { rewrite V. apply (near_rnd 6); auto. { apply (sane_weaken (-150)); [lia|]. now apply sqrt_sane. }
    apply near_sqrt; assumption. }
  rewrite E2 in A. pose proof (sane_nonneg _ _ SS) as P'.
  assert (E22 : 0 <= e * e) by nra.
  pose proof (near_mul 6 7 (e * e) (B2R v) e (B2R (dist a b)) E22 E0 P P' A A7) as M. cbn [Nat.add] in M.
  assert (SM : sane (-450) (B2R v * B2R (dist a b))).
  { destruct S as [->|S]; [left; ring|]. destruct SS as [->|SS]; [left; ring|right].
    change (-450)%Z with (-300 + -150)%Z. rewrite bpow_plus. apply Rmult_le_compat; auto using bpow_ge_0. }
  destruct (dmul_val v (dist a b) F F') as (_ & VM).
  { apply moderate_le. pose proof (proj2 M) as U. assert (B2R v * B2R (dist a b) <= 2048 * 2048 * 2048 * 2).
    { apply Rle_trans with (1 := U). apply Rmult_le_compat; try nra. unfold eps. cbn [pow]. lra.
      unfold eps. cbn [pow]. lra. }
    pose proof (sane_nonneg _ _ SM). lra. }
  change (dmul v (dist a b)) with (cube a b) in VM.
  assert (N : near 14 (e * e * e) (B2R (cube a b))).
  { rewrite VM. apply near_rnd; auto; [nra|]. apply (sane_weaken (-450)); [lia|exact SM]. }
  destruct N as (L & U). replace (e ^ 3) with (e * e * e) by ring. assert (E3 : 0 <= e * e * e) by nra. split.
  - apply Rle_trans with (2 := L). apply Rmult_le_compat_l; [exact E3|]. unfold eps. cbn [pow]. lra.
  - apply Rle_trans with (1 := U). apply Rmult_le_compat_l; [exact E3|]. unfold eps. cbn [pow]. lra.
Qed.

(** diehard_3dsphere finds the least distance of its 4000 points, and the cube
    it turns into a p-value is that of a pair of points that has it. *)
Theorem C44_3d : forall dexp u, unit_stream u -> exists rmin r3min p, diehard_3dsphere dexp u = (rmin, r3min, p) /\
  p = dsub DoubleModel.done (dexp (ddiv (dopp r3min) (d_of_Z 30))) /\
  let points := points_of 3 (fun x => dmul d1000 x) u (N.to_nat 4000) in
  least_distance points rmin /\
  exists a b, two_of points a b /\ let e := exact_distance a b in
    e * (1 - / 2 ^ 49) <= B2R rmin <= e * (1 + / 2 ^ 49) /\
    e ^ 3 * (1 - / 2 ^ 49) <= B2R r3min <= e ^ 3 * (1 + / 2 ^ 49).
Proof.
  intros ex u U. destruct d1000_val as (F1 & V1). destruct d2000_val as (F2 & V2). unfold diehard_3dsphere.
  assert (N : (3 ^ 3 < N.to_nat 4000)%nat) by (cbn [Nat.pow Nat.mul Nat.add]; lia).
  generalize dependent (N.to_nat 4000). intros n N.
  assert (R : forall i, in_range (dmul d1000 (u i)) /\ B2R (dmul d1000 (u i)) <= 1000).
  { intro i. destruct (U i) as (Fi & Bi). destruct (scaled d1000 (u i) 1000) as (_ & F & E & (_ & I) & B); auto; [lia|].
    rewrite <- E, V1 in B. rewrite <- E in I. repeat split; tauto. }
  assert (Ri : forall i, in_range (dmul d1000 (u i))) by (intro i; apply R).
  assert (K0 : found (map coords []) d2000 d2000 dzero).
  { split; [|now left]. repeat split; auto; try lra. intros a b T. destruct (two_of_nil _ _ T). }
  pose proof (points_3d_ok u Ri n 0 [] d2000 d2000 dzero (Forall_nil _) K0) as K. change (3 * 0)%nat with 0%nat in K.
  destruct (points_3d n u 0 [] d2000 dzero) as (r, r3). exists r, r3. eexists. split; [reflexivity|]. split; [reflexivity|]. cbn zeta.
  rewrite app_nil_r in K. fold (points_of 3 (fun x => dmul d1000 x) u n) in K.
  set (l := points_of 3 (fun x => dmul d1000 x) u n) in *.
  assert (Fl : Forall (fine 3) l) by (apply points_fine; exact Ri).
  apply found_perm with (l' := l) in K; [|apply Forall_rev; exact Fl|apply Permutation_sym, Permutation_rev].
  assert (C : exists a b, two_of l a b /\ exact_distance a b * (1 + / 2 ^ 49) < B2R d2000).
  { destruct (two_close 1000 3 l) as (a & b & T & C); auto; try lra.
    - apply Forall_forall. intros xs I. apply in_map_iff in I. destruct I as (t & <- & _). split; [reflexivity|].
      apply Forall_forall. intros x I. apply in_map_iff in I. destruct I as (d & <- & _).
      destruct (R (t * 3 + d)%nat) as ((_ & L & _) & B). pose proof (bpow_gt_0 radix2 (-64)). lra.
    - unfold l, points_of. rewrite map_length, seq_length. exact N.
    - exists a, b. split; [exact T|]. rewrite V2. pose proof pow49. assert (0 < 1 + / 2 ^ 49) by (cbn [pow]; lra).
      apply Rle_lt_trans with (1000 * (3 / 4) * (1 + / 2 ^ 49)); [|lra]. apply Rmult_le_compat_r; lra. }
  pose proof (smallest_least 3 l d2000 r ltac:(lia) Fl (proj1 K) C) as Le. split; [exact Le|].
  assert (Q : forall a b, two_of l a b -> Forall in_range a /\ Forall in_range b /\ length a = 3%nat /\ length b = 3%nat).
  { intros a b T. destruct (two_of_In _ _ _ T) as (Ia & Ib). rewrite Forall_forall in Fl.
    destruct (Fl a Ia). destruct (Fl b Ib). auto. }
  destruct K as ((_ & (P & B) & _ & A) & [->|(a & b & T & -> & ->)]).
  - exfalso. destruct C as (a & b & T & C). specialize (A _ _ T). destruct (Q _ _ T) as (Ra & Rb & La & Lb).
    destruct (dist_ok a b) as (_ & _ & D); auto; try congruence; try lia. lra.
  - destruct (Q _ _ T) as (Ra & Rb & La & Lb). destruct (dist_ok a b) as (_ & _ & D); auto; try congruence; try lia.
    exists a, b. split; [exact T|]. split; [exact D|]. apply cube_ok; auto. rewrite V2 in B.
    apply Rnot_lt_le. intro G. assert (2048 * (1 - / 2 ^ 49) <= exact_distance a b * (1 - / 2 ^ 49)).
    { apply Rmult_le_compat_r; [cbn [pow]; lra|lra]. } cbn [pow] in *. lra.
Qed.
Print Assumptions C44_3d.
