From Verif Require Import BaseLemmas ThreefishModel ThreefishSpec.
Open Scope N_scope.

Definition mixperm (v : list N) (d : nat) : list N := permute (mix_layer d v).
Lemma mod8 : forall q k, (k < 8)%nat -> ((8 * q + k) mod 8 = k)%nat.
Proof. intros q k K. symmetry. apply Nat.mod_unique with (q := q); lia. Qed.
Lemma rotation_mod : forall q k j, (k < 8)%nat -> rotation (8 * q + k) j = rotation k j.
Proof. intros q k j K. unfold rotation. rewrite mod8, Nat.mod_small by exact K. reflexivity. Qed.
Lemma mixperm_mod : forall v q k, (k < 8)%nat -> mixperm v (8 * q + k) = mixperm v k.
Proof.
  intros v q k K. unfold mixperm, mix_layer, mix. f_equal. cbn [seq flat_map app]. rewrite !rotation_mod by exact K. reflexivity.
Qed.
Definition mixc (r x0 x1 : N) : N := N.lxor (rotl64 x1 r) (w64 (x0 + x1)).
Lemma mix_eq : forall d j x0 x1, mix d j x0 x1 = [w64 (x0 + x1); mixc (rotation d j) x0 x1].
Proof. reflexivity. Qed.
Lemma mixperm_eq : forall d x0 x1 x2 x3 x4 x5 x6 x7, mixperm [x0; x1; x2; x3; x4; x5; x6; x7] d =
  [w64 (x2 + x3); mixc (rotation d 0) x0 x1; w64 (x4 + x5); mixc (rotation d 3) x6 x7; w64 (x6 + x7); mixc (rotation d 2) x4 x5; w64 (x0 + x1); mixc (rotation d 1) x2 x3].
Proof. intros. unfold mixperm, mix_layer. cbn [seq flat_map app Nat.mul Nat.add nth]. rewrite !mix_eq. reflexivity. Qed.

(** The four layouts the state goes through. *)
Definition lay (k : nat) (v : list N) : list N :=
  let g i := nth i v 0 in
  match k with
  | 1%nat => [g 6; g 1; g 0; g 7; g 2; g 5; g 4; g 3]%nat
  | 2%nat => [g 4; g 1; g 6; g 3; g 0; g 5; g 2; g 7]%nat
  | 3%nat => [g 2; g 1; g 4; g 7; g 6; g 5; g 0; g 3]%nat
  | _ => [g 0; g 1; g 2; g 3; g 4; g 5; g 6; g 7]%nat
  end.
Definition eight (v : list N) : Prop := exists x0 x1 x2 x3 x4 x5 x6 x7, v = [x0; x1; x2; x3; x4; x5; x6; x7].
Lemma eight_len : forall v, length v = 8%nat -> eight v.
Proof. intros v L. do 8 (destruct v as [|? v]; [discriminate|]). destruct v; [|discriminate]. repeat eexists. Qed.
Lemma ref_mix_eq : forall x0 x1 x2 x3 x4 x5 x6 x7 r, let X := [x0; x1; x2; x3; x4; x5; x6; x7] in
  ref_mix X (0, 1, r)%Z = Ok [w64 (x0 + x1); mixc r x0 x1; x2; x3; x4; x5; x6; x7] /\
  ref_mix X (2, 3, r)%Z = Ok [x0; x1; w64 (x2 + x3); mixc r x2 x3; x4; x5; x6; x7] /\
  ref_mix X (4, 5, r)%Z = Ok [x0; x1; x2; x3; w64 (x4 + x5); mixc r x4 x5; x6; x7] /\
  ref_mix X (6, 7, r)%Z = Ok [x0; x1; x2; x3; x4; x5; w64 (x6 + x7); mixc r x6 x7] /\
  ref_mix X (2, 1, r)%Z = Ok [x0; mixc r x2 x1; w64 (x2 + x1); x3; x4; x5; x6; x7] /\
  ref_mix X (4, 7, r)%Z = Ok [x0; x1; x2; x3; w64 (x4 + x7); x5; x6; mixc r x4 x7] /\
  ref_mix X (6, 5, r)%Z = Ok [x0; x1; x2; x3; x4; mixc r x6 x5; w64 (x6 + x5); x7] /\
  ref_mix X (0, 3, r)%Z = Ok [w64 (x0 + x3); x1; x2; mixc r x0 x3; x4; x5; x6; x7].
Proof. intros. repeat split; reflexivity. Qed.
Lemma ref_mix_eq2 : forall x0 x1 x2 x3 x4 x5 x6 x7 r, let X := [x0; x1; x2; x3; x4; x5; x6; x7] in
  ref_mix X (4, 1, r)%Z = Ok [x0; mixc r x4 x1; x2; x3; w64 (x4 + x1); x5; x6; x7] /\
  ref_mix X (6, 3, r)%Z = Ok [x0; x1; x2; mixc r x6 x3; x4; x5; w64 (x6 + x3); x7] /\
  ref_mix X (0, 5, r)%Z = Ok [w64 (x0 + x5); x1; x2; x3; x4; mixc r x0 x5; x6; x7] /\
  ref_mix X (2, 7, r)%Z = Ok [x0; x1; w64 (x2 + x7); x3; x4; x5; x6; mixc r x2 x7] /\
  ref_mix X (6, 1, r)%Z = Ok [x0; mixc r x6 x1; x2; x3; x4; x5; w64 (x6 + x1); x7] /\
  ref_mix X (0, 7, r)%Z = Ok [w64 (x0 + x7); x1; x2; x3; x4; x5; x6; mixc r x0 x7] /\
  ref_mix X (2, 5, r)%Z = Ok [x0; x1; w64 (x2 + x5); x3; x4; mixc r x2 x5; x6; x7] /\
  ref_mix X (4, 3, r)%Z = Ok [x0; x1; x2; mixc r x4 x3; w64 (x4 + x3); x5; x6; x7].
Proof. intros. repeat split; reflexivity. Qed.
Ltac ref_go :=
  repeat (cbn [ref_mixes bind];
    match goal with |- context [ref_mix [?x0; ?x1; ?x2; ?x3; ?x4; ?x5; ?x6; ?x7] (?a, ?b, ?r)] =>
      let H := fresh in
      first [ destruct (ref_mix_eq x0 x1 x2 x3 x4 x5 x6 x7 r) as (H & ? & ? & ? & ? & ? & ? & ?); rewrite H
            | destruct (ref_mix_eq x0 x1 x2 x3 x4 x5 x6 x7 r) as (? & H & ? & ? & ? & ? & ? & ?); rewrite H
            | destruct (ref_mix_eq x0 x1 x2 x3 x4 x5 x6 x7 r) as (? & ? & H & ? & ? & ? & ? & ?); rewrite H
            | destruct (ref_mix_eq x0 x1 x2 x3 x4 x5 x6 x7 r) as (? & ? & ? & H & ? & ? & ? & ?); rewrite H
            | destruct (ref_mix_eq x0 x1 x2 x3 x4 x5 x6 x7 r) as (? & ? & ? & ? & H & ? & ? & ?); rewrite H
            | destruct (ref_mix_eq x0 x1 x2 x3 x4 x5 x6 x7 r) as (? & ? & ? & ? & ? & H & ? & ?); rewrite H
            | destruct (ref_mix_eq x0 x1 x2 x3 x4 x5 x6 x7 r) as (? & ? & ? & ? & ? & ? & H & ?); rewrite H
            | destruct (ref_mix_eq x0 x1 x2 x3 x4 x5 x6 x7 r) as (? & ? & ? & ? & ? & ? & ? & H); rewrite H
            | destruct (ref_mix_eq2 x0 x1 x2 x3 x4 x5 x6 x7 r) as (H & ? & ? & ? & ? & ? & ? & ?); rewrite H
            | destruct (ref_mix_eq2 x0 x1 x2 x3 x4 x5 x6 x7 r) as (? & H & ? & ? & ? & ? & ? & ?); rewrite H
            | destruct (ref_mix_eq2 x0 x1 x2 x3 x4 x5 x6 x7 r) as (? & ? & H & ? & ? & ? & ? & ?); rewrite H
            | destruct (ref_mix_eq2 x0 x1 x2 x3 x4 x5 x6 x7 r) as (? & ? & ? & H & ? & ? & ? & ?); rewrite H
            | destruct (ref_mix_eq2 x0 x1 x2 x3 x4 x5 x6 x7 r) as (? & ? & ? & ? & H & ? & ? & ?); rewrite H
            | destruct (ref_mix_eq2 x0 x1 x2 x3 x4 x5 x6 x7 r) as (? & ? & ? & ? & ? & H & ? & ?); rewrite H
            | destruct (ref_mix_eq2 x0 x1 x2 x3 x4 x5 x6 x7 r) as (? & ? & ? & ? & ? & ? & H & ?); rewrite H
            | destruct (ref_mix_eq2 x0 x1 x2 x3 x4 x5 x6 x7 r) as (? & ? & ? & ? & ? & ? & ? & H); rewrite H ];
      clear end); cbn [ref_mixes].
(** Each round, with symbolic counts. *)
Lemma ref_r0 : forall x0 x1 x2 x3 x4 x5 x6 x7 d l, ref_mixes [x0; x1; x2; x3; x4; x5; x6; x7] ((0, 1, rotation d 0) :: (2, 3, rotation d 1) :: (4, 5, rotation d 2) :: (6, 7, rotation d 3) :: l)%Z =
  ref_mixes (lay 1 (mixperm [x0; x1; x2; x3; x4; x5; x6; x7] d)) l.
Proof. intros. rewrite mixperm_eq. ref_go. reflexivity. Qed.
Lemma ref_r1 : forall x0 x1 x2 x3 x4 x5 x6 x7 d l, ref_mixes (lay 1 [x0; x1; x2; x3; x4; x5; x6; x7]) ((2, 1, rotation d 0) :: (4, 7, rotation d 1) :: (6, 5, rotation d 2) :: (0, 3, rotation d 3) :: l)%Z =
  ref_mixes (lay 2 (mixperm [x0; x1; x2; x3; x4; x5; x6; x7] d)) l.
Proof. intros. rewrite mixperm_eq. unfold lay at 1. cbn [nth]. ref_go. reflexivity. Qed.
Lemma ref_r2 : forall x0 x1 x2 x3 x4 x5 x6 x7 d l, ref_mixes (lay 2 [x0; x1; x2; x3; x4; x5; x6; x7]) ((4, 1, rotation d 0) :: (6, 3, rotation d 1) :: (0, 5, rotation d 2) :: (2, 7, rotation d 3) :: l)%Z =
  ref_mixes (lay 3 (mixperm [x0; x1; x2; x3; x4; x5; x6; x7] d)) l.
Proof. intros. rewrite mixperm_eq. unfold lay at 1. cbn [nth]. ref_go. reflexivity. Qed.
Lemma ref_r3 : forall x0 x1 x2 x3 x4 x5 x6 x7 d l, ref_mixes (lay 3 [x0; x1; x2; x3; x4; x5; x6; x7]) ((6, 1, rotation d 0) :: (0, 7, rotation d 1) :: (2, 5, rotation d 2) :: (4, 3, rotation d 3) :: l)%Z =
  ref_mixes (mixperm [x0; x1; x2; x3; x4; x5; x6; x7] d) l.
Proof. intros. rewrite mixperm_eq. unfold lay at 1. cbn [nth]. ref_go. reflexivity. Qed.
Lemma mixperm_eight : forall v d, eight v -> eight (mixperm v d).
Proof. intros v d (x0 & x1 & x2 & x3 & x4 & x5 & x6 & x7 & ->). rewrite mixperm_eq. repeat eexists. Qed.
Lemma ref_group : forall v d0 d1 d2 d3, eight v ->
  ref_mixes v [(0, 1, rotation d0 0); (2, 3, rotation d0 1); (4, 5, rotation d0 2); (6, 7, rotation d0 3);
               (2, 1, rotation d1 0); (4, 7, rotation d1 1); (6, 5, rotation d1 2); (0, 3, rotation d1 3);
               (4, 1, rotation d2 0); (6, 3, rotation d2 1); (0, 5, rotation d2 2); (2, 7, rotation d2 3);
               (6, 1, rotation d3 0); (0, 7, rotation d3 1); (2, 5, rotation d3 2); (4, 3, rotation d3 3)]%Z =
  Ok (mixperm (mixperm (mixperm (mixperm v d0) d1) d2) d3).
Proof.
  intros v d0 d1 d2 d3 E. pose proof (mixperm_eight v d0 E) as E0. pose proof (mixperm_eight _ d1 E0) as E1. pose proof (mixperm_eight _ d2 E1) as E2.
  destruct E as (x0 & x1 & x2 & x3 & x4 & x5 & x6 & x7 & ->). rewrite ref_r0.
  destruct E0 as (y0 & y1 & y2 & y3 & y4 & y5 & y6 & y7 & E0). rewrite E0 in *. clear E0. rewrite ref_r1.
  destruct E1 as (z0 & z1 & z2 & z3 & z4 & z5 & z6 & z7 & E1). rewrite E1 in *. clear E1. rewrite ref_r2.
  destruct E2 as (u0 & u1 & u2 & u3 & u4 & u5 & u6 & u7 & E2). rewrite E2 in *. clear E2. rewrite ref_r3. reflexivity.
Qed.
Lemma ref_first_ok : forall v, eight v -> ref_mixes v ref_first = Ok (mixperm (mixperm (mixperm (mixperm v 0) 1) 2) 3).
Proof. intros v E. exact (ref_group v 0 1 2 3 E). Qed.
Lemma ref_second_ok : forall v, eight v -> ref_mixes v ref_second = Ok (mixperm (mixperm (mixperm (mixperm v 4) 5) 6) 7).
Proof. intros v E. exact (ref_group v 4 5 6 7 E). Qed.

Lemma mix64_eq : forall x0 x1 x2 x3 x4 x5 x6 x7 r0 r1 r2 r3,
  round512 0 1 2 3 4 5 6 7 r0 r1 r2 r3 [x0; x1; x2; x3; x4; x5; x6; x7] =
    [w64 (x0 + x1); mixc r0 x0 x1; w64 (x2 + x3); mixc r1 x2 x3; w64 (x4 + x5); mixc r2 x4 x5; w64 (x6 + x7); mixc r3 x6 x7] /\
  round512 2 1 4 7 6 5 0 3 r0 r1 r2 r3 [x0; x1; x2; x3; x4; x5; x6; x7] =
    [w64 (x0 + x3); mixc r0 x2 x1; w64 (x2 + x1); mixc r3 x0 x3; w64 (x4 + x7); mixc r2 x6 x5; w64 (x6 + x5); mixc r1 x4 x7] /\
  round512 4 1 6 3 0 5 2 7 r0 r1 r2 r3 [x0; x1; x2; x3; x4; x5; x6; x7] =
    [w64 (x0 + x5); mixc r0 x4 x1; w64 (x2 + x7); mixc r1 x6 x3; w64 (x4 + x1); mixc r2 x0 x5; w64 (x6 + x3); mixc r3 x2 x7] /\
  round512 6 1 0 7 2 5 4 3 r0 r1 r2 r3 [x0; x1; x2; x3; x4; x5; x6; x7] =
    [w64 (x0 + x7); mixc r0 x6 x1; w64 (x2 + x5); mixc r3 x4 x3; w64 (x4 + x3); mixc r2 x2 x5; w64 (x6 + x1); mixc r1 x0 x7].
Proof. intros. repeat split; reflexivity. Qed.
Lemma group64 : forall v d0 d1 d2 d3, eight v ->
  round512 6 1 0 7 2 5 4 3 (rotation d3 0) (rotation d3 1) (rotation d3 2) (rotation d3 3)
   (round512 4 1 6 3 0 5 2 7 (rotation d2 0) (rotation d2 1) (rotation d2 2) (rotation d2 3)
    (round512 2 1 4 7 6 5 0 3 (rotation d1 0) (rotation d1 1) (rotation d1 2) (rotation d1 3)
     (round512 0 1 2 3 4 5 6 7 (rotation d0 0) (rotation d0 1) (rotation d0 2) (rotation d0 3) v))) =
  mixperm (mixperm (mixperm (mixperm v d0) d1) d2) d3.
Proof.
  intros v d0 d1 d2 d3 (x0 & x1 & x2 & x3 & x4 & x5 & x6 & x7 & ->). rewrite mixperm_eq.
  destruct (mix64_eq x0 x1 x2 x3 x4 x5 x6 x7 (rotation d0 0) (rotation d0 1) (rotation d0 2) (rotation d0 3)) as (E & _ & _ & _). rewrite E. clear E.
  generalize (w64 (x0 + x1)) (mixc (rotation d0 0) x0 x1) (w64 (x2 + x3)) (mixc (rotation d0 1) x2 x3) (w64 (x4 + x5)) (mixc (rotation d0 2) x4 x5) (w64 (x6 + x7)) (mixc (rotation d0 3) x6 x7).
  clear. intros y0 y1 y2 y3 y4 y5 y6 y7. rewrite mixperm_eq.
  destruct (mix64_eq y0 y1 y2 y3 y4 y5 y6 y7 (rotation d1 0) (rotation d1 1) (rotation d1 2) (rotation d1 3)) as (_ & E & _ & _). rewrite E. clear E.
  generalize (w64 (y0 + y3)) (mixc (rotation d1 0) y2 y1) (w64 (y2 + y1)) (mixc (rotation d1 3) y0 y3) (w64 (y4 + y7)) (mixc (rotation d1 2) y6 y5) (w64 (y6 + y5)) (mixc (rotation d1 1) y4 y7).
  clear. intros y0 y1 y2 y3 y4 y5 y6 y7. rewrite mixperm_eq.
  destruct (mix64_eq y0 y1 y2 y3 y4 y5 y6 y7 (rotation d2 0) (rotation d2 1) (rotation d2 2) (rotation d2 3)) as (_ & _ & E & _). rewrite E. clear E.
  generalize (w64 (y0 + y5)) (mixc (rotation d2 0) y4 y1) (w64 (y2 + y7)) (mixc (rotation d2 1) y6 y3) (w64 (y4 + y1)) (mixc (rotation d2 2) y0 y5) (w64 (y6 + y3)) (mixc (rotation d2 3) y2 y7).
  clear. intros y0 y1 y2 y3 y4 y5 y6 y7. rewrite mixperm_eq.
  destruct (mix64_eq y0 y1 y2 y3 y4 y5 y6 y7 (rotation d3 0) (rotation d3 1) (rotation d3 2) (rotation d3 3)) as (_ & _ & _ & E). rewrite E. reflexivity.
Qed.
