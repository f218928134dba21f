(** The sweep over sorted points. *)
From Coq Require Import ZArith Bool Reals Lra Lia List Permutation Sorted.
From Flocq Require Import Core IEEE754.BinarySingleNaN.
From Verif Require Import SphereModel SphereSpec DoubleLemmas DoubleLemmas2 DoubleLemmas3 SphereLemmas BaseLemmas.
Import ListNotations.
Open Scope R_scope.

(** ** Reading points *)
Lemma aget_app {A} (l r : list A) x : aget (l ++ x :: r) (Z.of_nat (length l)) = Ok x.
Proof.
  unfold aget. replace (Z.of_nat (length l) <? 0)%Z with false by (symmetry; apply Z.ltb_ge; lia).
  rewrite Nat2Z.id, nth_error_app2 by lia. now rewrite Nat.sub_diag.
Qed.
Lemma read_app pre x xs r : read (map Some (pre ++ x :: xs) ++ r) (Z.of_nat (length pre)) = Ok x.
Proof.
  unfold read. rewrite map_app, <- app_assoc. cbn [map app].
  replace (Z.of_nat (length pre)) with (Z.of_nat (length (map (@Some double) pre))) by now rewrite map_length.
  rewrite aget_app. reflexivity.
Qed.
Lemma read_first x xs : read (point_of (x :: xs)) 0 = Ok x.
Proof. apply (read_app []). Qed.
Lemma distance_loop_ok : forall xs ys pre pre' r r' a, length xs = length ys -> length pre = length pre' ->
  distance_loop (length xs) (Z.of_nat (length pre)) (map Some (pre ++ xs) ++ r) (map Some (pre' ++ ys) ++ r') a = Ok (dsqrt (acc xs ys a)).
Proof.
  induction xs as [|x xs IH]; intros [|y ys] pre pre' r r' a L P; try discriminate; cbn [length distance_loop acc]; [reflexivity|].
  rewrite read_app. cbn [bind]. rewrite P, read_app. cbn [bind]. rewrite <- P. fold (dsq x y).
  replace (Z.of_nat (length pre) + 1)%Z with (Z.of_nat (length (pre ++ [x]))) by (rewrite app_length; cbn; lia).
  replace (pre ++ x :: xs) with ((pre ++ [x]) ++ xs) by now rewrite <- app_assoc.
  replace (pre' ++ y :: ys) with ((pre' ++ [y]) ++ ys) by now rewrite <- app_assoc.
  apply IH; [now injection L|rewrite !app_length; cbn; lia].
Qed.
Lemma distance_ok xs ys dim : length xs = dim -> length ys = dim -> distance (point_of xs) (point_of ys) dim = Ok (dist xs ys).
Proof. intros <- L. apply (distance_loop_ok xs ys [] []); auto. Qed.

Definition fine (dim : nat) (xs : list double) : Prop := length xs = dim /\ Forall in_range xs.
Definition first (xs : list double) : R := match xs with x :: _ => B2R x | [] => 0 end.

Lemma dist_fine dim a b : (dim <= 5)%nat -> fine dim a -> fine dim b -> is_finite (dist a b) = true /\ 0 <= B2R (dist a b).
Proof. intros D (La & Ra) (Lb & Rb). destruct (dist_ok a b) as (F & P & _); auto; try congruence; lia. Qed.

Lemma fin_lt (x y : double) : is_finite x = true -> is_finite y = true -> dlt x y = Rlt_bool (B2R x) (B2R y).
Proof.
  intros Fx Fy. unfold dlt. apply Bltb_correct; assumption.
Qed.
Lemma lt_true (x y : double) : is_finite x = true -> is_finite y = true -> dlt x y = true -> B2R x < B2R y.
Proof. intros Fx Fy. rewrite fin_lt by assumption. destruct (Rlt_bool_spec (B2R x) (B2R y)); [auto|discriminate]. Qed.
Lemma lt_false (x y : double) : is_finite x = true -> is_finite y = true -> dlt x y = false -> B2R y <= B2R x.
Proof. intros Fx Fy. rewrite fin_lt by assumption. destruct (Rlt_bool_spec (B2R x) (B2R y)); [discriminate|auto]. Qed.

(** ** Symmetry *)
Lemma dsq_sym x y : in_range x -> in_range y -> dsq x y = dsq y x.
Proof.
  intros Hx Hy. destruct (delta_val x y Hx Hy) as (F & V & _). destruct (delta_val y x Hy Hx) as (F' & V' & _).
  destruct (square_val x y Hx Hy) as (Q & W & _). destruct (square_val y x Hy Hx) as (Q' & W' & _).
  apply B2R_Bsign_inj; auto.
  - rewrite W, W', V, V'. replace (B2R y - B2R x) with (- (B2R x - B2R y)) by lra. rewrite rnd_opp. f_equal. ring.
  - assert (G : forall d : double, is_finite (dmul d d) = true -> Bsign (dmul d d) = false).
    { intros d Fd. pose proof (Bmult_correct 53 1024 prec_ok emax_ok mode_NE d d) as C. fold (dmul d d) in C.
      destruct (Rlt_bool _ _) in C.
      - destruct C as (_ & _ & C). rewrite C; [apply xorb_nilpotent|]. now apply finite_nan.
      - exfalso. rewrite <- is_finite_SF_B2SF in Fd. rewrite C in Fd.
        cbn in Fd. discriminate. }
    unfold dsq in *. rewrite !G; auto.
Qed.
Lemma acc_sym : forall xs ys a, Forall in_range xs -> Forall in_range ys -> acc xs ys a = acc ys xs a.
Proof.
  induction xs as [|x xs IH]; intros [|y ys] a Hx Hy; cbn [acc]; auto.
  inversion Hx; inversion Hy; subst. rewrite (dsq_sym x y) by assumption. now apply IH.
Qed.
Lemma dist_sym xs ys : Forall in_range xs -> Forall in_range ys -> dist xs ys = dist ys xs.
Proof. intros Hx Hy. unfold dist. now rewrite acc_sym. Qed.

(** ** Pairs *)
Lemma two_of_cons {A} (x : A) l a b : two_of (x :: l) a b <-> (a = x /\ In b l) \/ two_of l a b.
Proof.
  split.
  - intros (i & j & L & Hi & Hj). destruct j as [|j]; [lia|]. destruct i as [|i]; cbn in *.
    + left. split; [congruence|]. eapply nth_error_In, Hj.
    + right. exists i, j. repeat split; auto; lia.
  - intros [(-> & H)|(i & j & L & Hi & Hj)].
    + apply In_nth_error in H. destruct H as (n & H). exists 0%nat, (S n). repeat split; auto; lia.
    + exists (S i), (S j). repeat split; auto; lia.
Qed.
Lemma two_of_nil {A} (a b : A) : ~ two_of [] a b.
Proof. intros (i & j & _ & H & _). destruct i; discriminate. Qed.
Lemma two_of_In {A} (l : list A) a b : two_of l a b -> In a l /\ In b l.
Proof. intros (i & j & _ & Hi & Hj). split; eapply nth_error_In; eassumption. Qed.
Lemma two_of_perm {A} (l l' : list A) : Permutation l l' -> forall a b, two_of l a b -> two_of l' a b \/ two_of l' b a.
Proof.
  induction 1; intros a b H'.
  - destruct (two_of_nil _ _ H').
  - apply two_of_cons in H'. rewrite !two_of_cons. destruct H' as [(-> & I)|H'].
    + left. left. split; auto. eapply Permutation_in; eassumption.
    + destruct (IHPermutation _ _ H'); auto.
  - rewrite two_of_cons, two_of_cons in H'. rewrite !two_of_cons.
    destruct H' as [(-> & [<-|I])|[(-> & I)|H']]; cbn [In]; tauto.
  - destruct (IHPermutation1 _ _ H') as [Q|Q]; destruct (IHPermutation2 _ _ Q); auto.
Qed.

(** ** The minimum *)
(** [r] is the least of [m] and the rounded distances. *)
Definition smallest (l : list (list double)) (m r : double) : Prop :=
  is_finite r = true /\ 0 <= B2R r <= B2R m /\
  (r = m \/ exists a b, two_of l a b /\ r = dist a b) /\
  (forall a b, two_of l a b -> B2R r <= B2R (dist a b)).
Lemma smallest_val l m r r' : smallest l m r -> smallest l m r' -> B2R r = B2R r'.
Proof.
  assert (G : forall r r', smallest l m r -> smallest l m r' -> B2R r <= B2R r').
  { intros s s' (_ & (_ & U) & _ & A) (_ & _ & [->|(a & b & T & ->)] & _); auto. }
  intros H H'. apply Rle_antisym; auto.
Qed.
Lemma smallest_perm dim l l' m r : Forall (fine dim) l -> Permutation l l' -> smallest l m r -> smallest l' m r.
Proof.
  intros Fl P (F & U & E & A).
  assert (S : forall a b, two_of l a b \/ two_of l b a -> dist a b = dist b a).
  { intros a b T. assert (In a l /\ In b l) as (I & I') by (destruct T as [T|T]; apply two_of_In in T; tauto).
    rewrite Forall_forall in Fl. apply dist_sym; apply Fl; assumption. }
  repeat split; try tauto.
  - destruct E as [E|(a & b & T & E)]; [auto|right]. destruct (two_of_perm _ _ P _ _ T) as [Q|Q].
    + exists a, b. auto.
    + exists b, a. split; auto. rewrite E. apply S. auto.
  - intros a b T. destruct (two_of_perm _ _ (Permutation_sym P) _ _ T) as [Q|Q]; [auto|]. rewrite S by auto. auto.
Qed.

Lemma Forall2_in {A} (P : A -> Prop) l x : Forall P l -> In x l -> P x.
Proof. rewrite Forall_forall. auto. Qed.

Lemma sweep_from_ok dim p : (1 <= dim <= 5)%nat -> fine dim p -> forall rest m,
  Forall (fine dim) rest -> StronglySorted (fun a b => first a <= first b) rest ->
  is_finite m = true -> 0 <= B2R m ->
  exists r, sweep_from dim (point_of p) (map point_of rest) m = Ok r /\ is_finite r = true /\ 0 <= B2R r <= B2R m /\
  (r = m \/ exists q, In q rest /\ r = dist q p) /\ (forall q, In q rest -> B2R r <= B2R (dist q p)).
Proof.
  intros D Fp. induction rest as [|q rest IH]; intros m Fr So Fm Pm; cbn [map sweep_from].
  { exists m. repeat split; auto; try lra. contradiction. }
  inversion Fr as [|? ? Fq Fr']; subst. inversion So as [|? ? So' Sq]; subst.
  destruct p as [|x xs]; [destruct Fp as (E & _); cbn in E; lia|]. destruct q as [|y ys]; [destruct Fq as (E & _); cbn in E; lia|].
  rewrite !read_first. cbn [bind].
  destruct Fp as (Lp & Rp). destruct Fq as (Lq & Rq). pose proof (Forall_inv Rp) as Ix. pose proof (Forall_inv Rq) as Iy.
  destruct (delta_val y x Iy Ix) as (Fd & Vd & _).
  unfold dgt. change (Bltb m (dsub y x)) with (dlt m (dsub y x)). destruct (dlt m (dsub y x)) eqn:C.
  - apply lt_true in C; auto. exists m. repeat split; auto; try lra.
    intros q Iq.
    assert (exists z zs, q = z :: zs) as (z & zs & ->).
    { assert (fine dim q) as (Lz & _). { destruct Iq as [<-|Iq]; [split; assumption|]. eapply Forall2_in; eassumption. }
      destruct q as [|z zs]; [cbn in Lz; lia|eauto]. }
    assert (fine dim (z :: zs)) as (Lz & Rz). { destruct Iq as [<-|Iq]; [split; assumption|]. eapply Forall2_in; eassumption. }
    assert (Y : B2R y <= B2R z). { destruct Iq as [[= <- <-]|Iq]; [lra|]. apply (Forall2_in _ _ _ Sq Iq). }
    pose proof (Forall_inv Rz) as Iz. destruct (delta_val z x Iz Ix) as (Fz & Vz & _).
    apply prune; auto; try (cbn in *; lia).
    apply Rlt_le_trans with (1 := C). rewrite Vd, Vz. apply rnd_le. lra.
  - rewrite distance_ok by assumption. cbn [bind].
    destruct (dist_fine dim (y :: ys) (x :: xs)) as (Fe & Pe); try lia; try (split; assumption).
    set (e := dist (y :: ys) (x :: xs)) in *.
    set (m' := if dlt e m then e else m).
    assert (is_finite m' = true /\ 0 <= B2R m' /\ B2R m' <= B2R m /\ B2R m' <= B2R e /\ (m' = m \/ m' = e)) as (Fm' & Pm' & U1 & U2 & E).
    { unfold m'. destruct (dlt e m) eqn:Q; [apply lt_true in Q|apply lt_false in Q]; auto; repeat split; auto; lra. }
    destruct (IH m' Fr' So' Fm' Pm') as (r & R & Fin & (P1 & P2) & W & A).
    exists r. split; [exact R|]. repeat split; auto; try lra.
    + destruct W as [->|(q & Iq & ->)]; [|right; exists q; split; auto; now right].
      destruct E as [->| ->]; [now left|right; exists (y :: ys); split; [now left|reflexivity]].
    + intros q [<-|Iq]; [fold e; lra|auto].
Qed.
Lemma sweep_ok dim : (1 <= dim <= 5)%nat -> forall l m,
  Forall (fine dim) l -> StronglySorted (fun a b => first a <= first b) l -> is_finite m = true -> 0 <= B2R m ->
  exists r, sweep dim (map point_of l) m = Ok r /\ smallest l m r.
Proof.
  intros D. induction l as [|p rest IH]; intros m Fl So Fm Pm; cbn [map sweep].
  { exists m. repeat split; auto; try lra. intros a b H. destruct (two_of_nil _ _ H). }
  inversion Fl as [|? ? Fp Fr]; subst. inversion So as [|? ? So' Sp]; subst.
  destruct (sweep_from_ok dim p D Fp rest m Fr So' Fm Pm) as (r1 & E1 & F1 & (P1 & U1) & W1 & A1). rewrite E1. cbn [bind].
  destruct (IH r1 Fr So' F1 P1) as (r & E & F & (P & U) & W & A). exists r. split; [exact E|].
  assert (S : forall q, In q rest -> dist q p = dist p q).
  { intros q I. apply dist_sym; [apply (Forall2_in _ _ _ Fr I)|apply Fp]. }
  repeat split; auto; try lra.
  - destruct W as [->|(a & b & T & ->)].
    + destruct W1 as [->|(q & I & ->)]; [now left|right]. exists p, q. rewrite two_of_cons. rewrite S by exact I. auto.
    + right. exists a, b. rewrite two_of_cons. auto.
  - intros a b T. apply two_of_cons in T. destruct T as [(-> & I)|T]; [|auto].
    rewrite <- S by exact I. specialize (A1 _ I). lra.
Qed.
Lemma compare_with_ok dim p : (dim <= 5)%nat -> fine dim p -> forall rest m,
  Forall (fine dim) rest -> is_finite m = true -> 0 <= B2R m ->
  exists r, compare_with dim (point_of p) (map point_of rest) m = Ok r /\ is_finite r = true /\ 0 <= B2R r <= B2R m /\
  (r = m \/ exists q, In q rest /\ r = dist p q) /\ (forall q, In q rest -> B2R r <= B2R (dist p q)).
Proof.
  intros D Fp. induction rest as [|q rest IH]; intros m Fr Fm Pm; cbn [map compare_with].
  { exists m. repeat split; auto; try lra. contradiction. }
  inversion Fr as [|? ? Fq Fr']; subst.
  rewrite distance_ok by (apply Fp || apply Fq). cbn [bind].
  destruct (dist_fine dim p q) as (Fe & Pe); auto. set (e := dist p q) in *.
  set (m' := if dlt e m then e else m).
  assert (is_finite m' = true /\ 0 <= B2R m' /\ B2R m' <= B2R m /\ B2R m' <= B2R e /\ (m' = m \/ m' = e)) as (Fm' & Pm' & U1 & U2 & E).
  { unfold m'. destruct (dlt e m) eqn:Q; [apply lt_true in Q|apply lt_false in Q]; auto; repeat split; auto; lra. }
  destruct (IH m' Fr' Fm' Pm') as (r & R & Fin & (P1 & P2) & W & A).
  exists r. split; [exact R|]. repeat split; auto; try lra.
  - destruct W as [->|(q' & Iq & ->)]; [|right; exists q'; split; auto; now right].
    destruct E as [->| ->]; [now left|right; exists q; split; [now left|reflexivity]].
  - intros q' [<-|Iq]; [fold e; lra|auto].
Qed.
Lemma all_pairs_ok dim : (dim <= 5)%nat -> forall l m,
  Forall (fine dim) l -> is_finite m = true -> 0 <= B2R m ->
  exists r, all_pairs dim (map point_of l) m = Ok r /\ smallest l m r.
Proof.
  intros D. induction l as [|p rest IH]; intros m Fl Fm Pm; cbn [map all_pairs].
  { exists m. repeat split; auto; try lra. intros a b H. destruct (two_of_nil _ _ H). }
  inversion Fl as [|? ? Fp Fr]; subst.
  destruct (compare_with_ok dim p D Fp rest m Fr Fm Pm) as (r1 & E1 & F1 & (P1 & U1) & W1 & A1). rewrite E1. cbn [bind].
  destruct (IH r1 Fr F1 P1) as (r & E & F & (P & U) & W & A). exists r. split; [exact E|].
  repeat split; auto; try lra.
  - destruct W as [->|(a & b & T & ->)].
    + destruct W1 as [->|(q & I & ->)]; [now left|right]. exists p, q. rewrite two_of_cons. auto.
    + right. exists a, b. rewrite two_of_cons. auto.
  - intros a b T. apply two_of_cons in T. destruct T as [(-> & I)|T]; [|auto]. specialize (A1 _ I). lra.
Qed.

(** ** Sorting *)
Lemma compare_le a b : in_range a -> in_range b -> forall xs ys c,
  compare_points (point_of (a :: xs)) (point_of (b :: ys)) = Ok c -> (c <= 0)%Z -> B2R a <= B2R b.
Proof.
  intros Ha Hb xs ys c E L. unfold compare_points in E. rewrite !read_first in E. cbn [bind] in E.
  destruct (Rle_or_lt (B2R a) (B2R b)) as [H|H]; [exact H|exfalso].
  destruct (delta_val a b Ha Hb) as (F & V & _).
  assert (P : 0 < B2R (dsub a b)).
  { rewrite V. apply Rlt_le_trans with (bpow radix2 (-117)); [apply bpow_gt_0|].
    rewrite <- (rnd_bpow (-117)) by lia. apply rnd_le. apply gap; [apply Hb|exact H]. }
  unfold dgt in E. change (Bltb dzero (dsub a b)) with (dlt dzero (dsub a b)) in E.
  rewrite (fin_lt dzero) in E by (reflexivity || exact F).
  change (B2R dzero) with 0 in E. rewrite Rlt_bool_true in E by exact P. injection E as <-. lia.
Qed.
Lemma sorted_points srt dim l : sorts_points srt -> (1 <= dim)%nat -> Forall (fine dim) l ->
  exists l', srt (map point_of l) = map point_of l' /\ Permutation l l' /\ Forall (fine dim) l' /\
  StronglySorted (fun a b => first a <= first b) l'.
Proof.
  intros S D Fl. destruct (S (map point_of l)) as (P & O).
  { rewrite Forall_map. revert Fl. apply Forall_impl. intros [|x xs] (L & R); [cbn in L; lia|].
    exists x. split; [apply read_first|]. apply (Forall_inv R). }
  destruct (Permutation_map_inv _ _ (Permutation_sym P)) as (l' & E & P'). exists l'.
  assert (Fl' : Forall (fine dim) l') by (rewrite Forall_forall in *; intros x I; apply Fl; eapply Permutation_in; [apply Permutation_sym|]; eassumption).
  repeat split; auto. rewrite E in O. clear - O Fl' D.
  induction l' as [|a l' IH]; [constructor|]. cbn [map] in O. inversion O as [|? ? O' A]; inversion Fl' as [|? ? Fa Fr]; subst.
  constructor; [auto|]. rewrite Forall_map in A. rewrite Forall_forall in *. intros b I. destruct (A b I) as (c & E & L).
  specialize (Fr b I). destruct a as [|x xs]; [destruct Fa as (X & _); cbn in X; lia|].
  destruct b as [|y ys]; [destruct Fr as (X & _); cbn in X; lia|]. cbn [first].
  eapply compare_le; eauto; eapply Forall_inv; [apply Fa|apply Fr].
Qed.
