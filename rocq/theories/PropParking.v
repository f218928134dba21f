(** C128, C129: the parking lot test. *)
From Coq Require Import Reals List ZArith NArith Lia Lra.
From Flocq Require Import Core BinarySingleNaN.
From Verif Require Import ParkingModel ParkingSpec ParkingLemmas DoubleLemmas DoubleLemmas2 DoubleLemmas3.
Import ListNotations.
Open Scope R_scope.

(** C128: whatever the deviates, exactly those cars are parked that overlap no
    car parked before them; there is one such list of attempts; the array is
    never left; two deviates are drawn for every attempt. *)
Theorem C128_parked : forall u attempts c, (forall i, deviate (u i)) -> (1 <= attempts)%nat ->
  exists P parked, succeed (spot u c) attempts P /\
    (forall Q, succeed (spot u c) attempts Q -> Q = P) /\
    park u attempts c = Ok (parked, length P, (c + 2 * attempts)%nat) /\
    map (fun p => (B2R (fst p), B2R (snd p))) (firstn (length P) parked) = map (spot u c) P.
Proof.
  intros u attempts c U L. destruct (park_ok u U c attempts L) as (s & E & P & rest & S1 & -> & _ & _).
  exists P, (map (the_car u c) P ++ rest). split; [exact S1|]. split; [intros Q SQ; apply (succeed_unique u c attempts); assumption|].
  split; [exact E|]. rewrite <- (map_length (the_car u c) P) at 1. rewrite firstn_app, firstn_all, Nat.sub_diag. cbn [firstn]. rewrite app_nil_r, map_map.
  apply map_ext. intro n. destruct (the_car_ok u U c n) as (_ & _ & X). exact X.
Qed.

(** C128: the number of parked cars.  It lies between a twenty-fifth of the
    number of unit squares that are hit and that number: never more than 10000,
    so that 12000 places are enough. *)
Theorem C128_count : forall u attempts c P, (forall i, deviate (u i)) -> (1 <= attempts)%nat -> succeed (spot u c) attempts P ->
  (1 <= length P)%nat /\ (length (squares (spot u c) attempts) <= 25 * length P)%nat /\
  (length P <= length (squares (spot u c) attempts))%nat /\ (length (squares (spot u c) attempts) <= 100 * 100)%nat.
Proof.
  intros u attempts c P U L S1. split; [|split; [apply covered; assumption|split; [eapply bounded; eassumption|apply squares_bound; assumption]]].
  assert (I : In 0%nat P) by (apply (proj2 S1); split; [lia|]; intros; lia). destruct P; [destruct I|cbn; lia].
Qed.

(** C129: the p-value is the normal distribution function, with the standard
    deviation 21.9, of 3523 less the number of parked cars, exactly. *)
Theorem C129_pvalue : forall dpow dexp gaussian_P u c, (forall i, deviate (u i)) ->
  exists P z, succeed (spot u c) (N.to_nat 12000) P /\ (1 <= length P <= 100 * 100)%nat /\
    diehard_parking_lot dpow dexp gaussian_P u c = Ok (gaussian_P z (d_lit 219 10), (c + 2 * N.to_nat 12000)%nat) /\
    is_finite z = true /\ B2R z = 3523 - INR (length P).
Proof.
  change (N.to_nat 12000) with parking_attempts.
  intros dpow dexp gP u c U. assert (L : (1 <= parking_attempts)%nat) by (unfold parking_attempts; lia).
  destruct (C128_parked u parking_attempts c U L) as (P & parked & S1 & _ & E & _).
  destruct (C128_count u parking_attempts c P U L S1) as (K1 & _ & K2 & K3).
  assert (K4 : (length P <= 100 * 100)%nat) by (apply Nat.le_trans with (1 := K2); exact K3).
  exists P, (dsub (d_of_Z 3523) (d_of_Z (Z.of_nat (length P)))). split; [exact S1|]. split; [split; assumption|].
  assert (K5 : (1 <= Z.of_nat (length P) <= 10000)%Z) by lia.
  destruct (d_of_Z_val 3523) as (F1 & V1 & _); [lia|]. destruct (d_of_Z_val (Z.of_nat (length P))) as (F2 & V2 & _); [lia|].
  assert (V : B2R (d_of_Z 3523) - B2R (d_of_Z (Z.of_nat (length P))) = IZR (3523 - Z.of_nat (length P))) by (rewrite V1, V2, minus_IZR; reflexivity).
  destruct (dsub_mod _ _ F1 F2) as [F3 V3]. { rewrite V. apply moderate_le. split; apply IZR_le; lia. }
  split; [|split; [exact F3|]].
  - unfold diehard_parking_lot. rewrite E. cbn [bind fst snd]. unfold Xtest_eval. cbn [xt_x xt_y xt_sigma nint nlit nsub doubles].
    repeat f_equal. apply B2SF_inj. vm_compute. reflexivity.
  - rewrite V3, V, rnd_int by lia. rewrite minus_IZR, <- INR_IZR_INZ. reflexivity.
Qed.

(** The program on a few deviates: a constant generator parks one car; four
    attempts of which the second and the last overlap the first. *)
Definition ex_u (i : nat) : double := nth i [d_lit 1 2; d_lit 1 4; d_lit 509 1000; d_lit 241 1000; d_lit 52 100; d_lit 1 4; d_lit 50 100; d_lit 25 100] dzero.
Example C128_ex_constant : match park (fun _ => dhalf) 6 0 with Ok (_, k, c) => k = 1%nat /\ c = 12%nat | _ => False end.
Proof. vm_compute. split; reflexivity. Qed.
Example C128_ex : match park ex_u 4 0 with Ok (_, k, c) => k = 2%nat /\ c = 8%nat | _ => False end.
Proof. vm_compute. split; reflexivity. Qed.
(** The hypotheses hold for that generator. *)
Example C128_ex_deviate : forall i, deviate ((fun _ : nat => dhalf) i).
Proof. intro i. split; [reflexivity|]. cbv beta. rewrite dhalf_fin. lra. Qed.
Example C129_ex : exists P z, succeed (spot (fun _ => dhalf) 0) (N.to_nat 12000) P /\ (1 <= length P <= 100 * 100)%nat /\
    diehard_parking_lot (fun x _ => x) (fun x => x) (fun x _ => x) (fun _ => dhalf) 0 = Ok (z, (0 + 2 * N.to_nat 12000)%nat) /\
    is_finite z = true /\ B2R z = 3523 - INR (length P).
Proof. apply (C129_pvalue (fun x _ => x) (fun x => x) (fun x _ => x)), C128_ex_deviate. Qed.

Print Assumptions C128_parked.
Print Assumptions C128_count.
Print Assumptions C129_pvalue.
