From Coq Require Import Reals List ZArith Lia Lra Bool Sorted.
From Flocq Require Import Core BinarySingleNaN.
From Verif Require Import ParkingModel ParkingSpec DoubleLemmas DoubleLemmas2 DoubleLemmas3 SphereLemmas BaseLemmas KsLemmas3.
Import ListNotations.
Open Scope R_scope.

Definition half_ulp : double := @B754_finite 53 1024 false 4503599627370496 (-105) eq_refl.
Lemma half_ulp_val : B2R half_ulp = / 2 ^ 53.
Proof. unfold half_ulp, B2R, F2R; cbn [Fnum Fexp cond_Zopp bpow]. simpl. lra. Qed.
Lemma done_val : B2R done = 1.
Proof. rewrite <- val_one. reflexivity. Qed.
Lemma rnd_mid : rnd (1 + / 2 ^ 53) = 1.
Proof.
  destruct (dadd_val done half_ulp eq_refl eq_refl) as [_ H].
  { rewrite done_val, half_ulp_val. apply moderate_le. lra. }
  rewrite done_val, half_ulp_val in H. rewrite <- H. rewrite <- done_val. f_equal. apply B2SF_inj. vm_compute. reflexivity.
Qed.
Definition one_up : double := @B754_finite 53 1024 false 4503599627370497 (-52) eq_refl.
Lemma one_up_val : B2R one_up = 1 + / 2 ^ 52.
Proof. unfold one_up, B2R, F2R; cbn [Fnum Fexp cond_Zopp bpow]. simpl. lra. Qed.
Lemma rnd_above x : 1 + / 2 ^ 53 < x -> 1 < rnd x.
Proof.
  intro H. destruct (Rlt_or_le 1 (rnd x)) as [C|C]; [exact C|exfalso].
  destruct (Rle_or_lt (B2R one_up) x) as [D|D].
  - pose proof (rnd_le _ _ D) as E. rewrite rnd_double, one_up_val in E. lra.
  - pose proof (round_N_pt radix2 (SpecFloat.fexp 53 1024) (fun z => negb (Z.even z)) x) as [_ N].
    specialize (N (B2R one_up) (generic_format_B2R 53 1024 one_up)).
    change (round radix2 (SpecFloat.fexp 53 1024) (Znearest (fun z => negb (Z.even z))) x) with (rnd x) in N.
    rewrite (Rabs_left1 (rnd x - x)) in N by lra. rewrite (Rabs_pos_eq (B2R one_up - x)) in N by lra. rewrite one_up_val in *. lra.
Qed.
Lemma rnd_le_one x : rnd x <= 1 <-> x <= 1 + / 2 ^ 53.
Proof.
  split; intro H.
  - destruct (Rle_or_lt x (1 + / 2 ^ 53)) as [C|C]; [exact C|]. pose proof (rnd_above x C). lra.
  - rewrite <- rnd_mid. apply rnd_le. exact H.
Qed.

Definition place (p : car) : R * R := (B2R (fst p), B2R (snd p)).
Definition in_lot (x : double) : Prop := is_finite x = true /\ 0 <= B2R x < 100.

Lemma near_ok a b : in_lot a -> in_lot b ->
  (dle (dabs (dsub a b)) done = true <-> Rabs (B2R a - B2R b) <= 1 + / 2 ^ 53).
Proof.
  intros (Fa & Ba) (Fb & Bb). destruct (dsub_mod a b Fa Fb) as [F V]. { apply moderate_le. lra. }
  pose proof (val_dabs (dsub a b) (finite_nan _ F)) as [N1 V1].
  rewrite dle_val by (auto; reflexivity). rewrite V1, val_finite, V, val_one by exact F.
  rewrite rnd_abs. apply rnd_le_one.
Qed.
Lemma hits_ok p q : in_lot (fst p) -> in_lot (snd p) -> in_lot (fst q) -> in_lot (snd q) ->
  (hits p q = true <-> overlap (place p) (place q)).
Proof. intros. unfold hits, overlap, place. cbn [fst snd]. rewrite andb_true_iff, !near_ok by assumption. reflexivity. Qed.

Lemma d100_val : is_finite d100 = true /\ B2R d100 = 100.
Proof. unfold d100. destruct (d_of_Z_val 100) as (A & B & _); [lia|]. split; [exact A|exact B]. Qed.
(** 1 - 2^-53, the largest double below one *)
Definition below : double := @B754_finite 53 1024 false 9007199254740991 (-53) eq_refl.
Lemma below_val : B2R below = 1 - / 2 ^ 53.
Proof. unfold below, B2R, F2R; cbn [Fnum Fexp cond_Zopp bpow]. simpl. lra. Qed.
Lemma deviate_below x : deviate x -> B2R x <= B2R below.
Proof.
  intros (F & B). pose proof (generic_format_B2R 53 1024 x) as G.
  destruct (Rle_or_lt (B2R x) (B2R below)) as [C|C]; [exact C|exfalso].
  assert (F1 : is_finite (Bsucc below) = true) by reflexivity.
  destruct (neighbour below x eq_refl F1 F) as [D|D]; [lra|].
  replace (Bsucc below) with done in D by (apply B2SF_inj; vm_compute; reflexivity). rewrite done_val in D. lra.
Qed.
Lemma lot_ok x : deviate x -> in_lot (dmul d100 x) /\ B2R (dmul d100 x) = rnd (100 * B2R x).
Proof.
  intros D. pose proof (deviate_below x D) as U. destruct D as (F & B). destruct d100_val as [F1 V1].
  destruct (dmul_val d100 x F1 F) as [F2 V2]. { rewrite V1. apply moderate_le. lra. }
  rewrite V1 in V2. split; [split; [exact F2|]|exact V2]. rewrite V2. split.
  - rewrite <- rnd_zero. apply rnd_le. lra.
  - apply Rle_lt_trans with (rnd (100 * B2R below)); [apply rnd_le; lra|].
    destruct (dmul_val d100 below F1 eq_refl) as [_ V3]. { rewrite V1, below_val. apply moderate_le. lra. }
    rewrite V1 in V3. rewrite <- V3.
    replace (dmul d100 below) with (@B754_finite 53 1024 false 7036874417766399 (-46) eq_refl) by (apply B2SF_inj; vm_compute; reflexivity).
    unfold B2R, F2R; cbn [Fnum Fexp cond_Zopp bpow]. simpl. lra.
Qed.

(** The loop over the parked cars. *)
Lemma crash_loop_ok (t : car) : forall (cars pre rest : list car),
  crash_loop (length cars) (Z.of_nat (length pre)) (pre ++ cars ++ rest) t = Ok (existsb (fun p => hits p t) cars).
Proof.
  induction cars as [|p cars IH]; intros pre rest; [reflexivity|]. cbn [length crash_loop existsb].
  rewrite (get_nat (T := car) (dzero, dzero)) by (rewrite !app_length; cbn; lia). cbn [bind].
  rewrite app_nth2 by lia. rewrite Nat.sub_diag. cbn [app nth].
  destruct (hits p t); [reflexivity|]. cbn [orb].
  specialize (IH (pre ++ [p]) rest). rewrite app_length in IH. cbn [length] in IH.
  replace (Z.of_nat (length pre) + 1)%Z with (Z.of_nat (length pre + 1)) by lia. rewrite <- IH. f_equal. rewrite <- !app_assoc. reflexivity.
Qed.
Lemma set_after {T} (a : T) : forall (l rest : list T) b, set_nth (l ++ b :: rest) (length l) a = l ++ a :: rest.
Proof. induction l as [|x l IH]; intros rest b; cbn; [reflexivity|]. f_equal. apply IH. Qed.

Section Park.
Variable u : nat -> double.
Hypothesis U : forall i, deviate (u i).
Variable c : nat.

Definition the_car (n : nat) : car := try_at u (c + 2 * n).
Lemma the_car_ok n : in_lot (fst (the_car n)) /\ in_lot (snd (the_car n)) /\ place (the_car n) = spot u c n.
Proof.
  unfold the_car, try_at, place, spot. cbn [fst snd]. replace (c + 2 * n + 1)%nat with (S (c + 2 * n)) by lia.
  destruct (lot_ok _ (U (c + 2 * n)%nat)) as [A B]. destruct (lot_ok _ (U (S (c + 2 * n)))) as [A1 B1].
  repeat split; try apply A; try apply A1. rewrite B, B1. reflexivity.
Qed.
Lemma hits_spot m n : hits (the_car m) (the_car n) = true <-> overlap (spot u c m) (spot u c n).
Proof.
  destruct (the_car_ok m) as (A & B & <-). destruct (the_car_ok n) as (A1 & B1 & <-). apply hits_ok; assumption.
Qed.

Lemma succeed_lt n P : succeed (spot u c) n P -> forall m, In m P -> (m < n)%nat.
Proof. intros [_ H] m I. apply H in I. apply I. Qed.
Lemma succeed_first : succeed (spot u c) 1 [0%nat].
Proof.
  split. { intros i j H. cbn in H. lia. }
  intro n. split.
  - intros [<-|[]]. split; [lia|]. intros m [<-|[]] H. lia.
  - intros [H _]. left. lia.
Qed.
Lemma succeed_crash n P m : succeed (spot u c) n P -> In m P -> overlap (spot u c m) (spot u c n) -> succeed (spot u c) (S n) P.
Proof.
  intros S1 I O. pose proof (succeed_lt _ _ S1 m I) as L. destruct S1 as [A B]. split; [exact A|].
  intro j. rewrite B. split; intros [H1 H2]; (split; [|exact H2]); [lia|].
  destruct (Nat.eq_dec j n) as [->|]; [|lia]. exfalso. apply (H2 m I L O).
Qed.
Lemma succeed_park n P : succeed (spot u c) n P -> (forall m, In m P -> ~ overlap (spot u c m) (spot u c n)) ->
  succeed (spot u c) (S n) (P ++ [n]).
Proof.
  intros S1 O. pose proof (succeed_lt _ _ S1) as L. destruct S1 as [A B]. split.
  - intros i j H. rewrite app_length in H. cbn in H.
    destruct (Nat.eq_dec j (length P)) as [->|].
    + rewrite nth_middle, app_nth1 by lia. apply L, nth_In. lia.
    + rewrite !app_nth1 by lia. apply A. lia.
  - intro j. rewrite in_app_iff. cbn [In]. split.
    + intros [I|[<-|[]]].
      * pose proof (L j I). split; [lia|]. intros m [Im|[<-|[]]]%in_app_iff Lt; [|lia]. apply B in I. now apply I.
      * split; [lia|]. intros m [Im|[<-|[]]]%in_app_iff Lt; [|lia]. now apply O.
    + intros [H1 H2]. destruct (Nat.eq_dec j n) as [->|]; [auto|]. left. apply B. split; [lia|]. intros m Im. apply H2, in_app_iff. auto.
Qed.

Definition state_ok (attempts n : nat) (s : list car * nat * nat) : Prop :=
  exists P rest, succeed (spot u c) n P /\ s = (map the_car P ++ rest, length P, (c + 2 * n)%nat) /\
    (length P <= n)%nat /\ (length P + length rest = attempts)%nat.

Lemma step_ok attempts n s : (n < attempts)%nat -> state_ok attempts n s -> exists s', park_step u s = Ok s' /\ state_ok attempts (S n) s'.
Proof.
  intros Ln (P & rest & S1 & -> & Lp & Le). unfold park_step.
  pose proof (crash_loop_ok (the_car n) (map the_car P) [] rest) as C. rewrite map_length in C. cbn [length app] in C.
  change (Z.of_nat 0) with 0%Z in C. unfold the_car at 2 in C. rewrite C. cbn [bind].
  change (try_at u (c + 2 * n)) with (the_car n).
  destruct (existsb (fun p => hits p (the_car n)) (map the_car P)) eqn:E.
  - apply existsb_exists in E. destruct E as (p & Ip & Hp). apply in_map_iff in Ip. destruct Ip as (m & <- & Im).
    apply hits_spot in Hp. eexists. split; [reflexivity|]. exists P, rest. split; [apply (succeed_crash n P m S1 Im Hp)|]. split; [f_equal; lia|]. lia.
  - destruct rest as [|b rest]; [cbn in Le; lia|].
    rewrite (put_nat (T := car)) by (rewrite app_length, map_length; cbn; lia). cbn [bind].
    eexists. split; [reflexivity|]. exists (P ++ [n]), rest. split; [|split; [|split]].
    + apply succeed_park; [exact S1|]. intros m Im O. apply hits_spot in O.
      assert (X : existsb (fun p => hits p (the_car n)) (map the_car P) = true) by (apply existsb_exists; exists (the_car m); split; [apply in_map, Im|exact O]).
      congruence.
    + f_equal; [f_equal|lia].
      * rewrite map_app, <- (map_length the_car P), set_after, <- app_assoc. reflexivity.
      * rewrite app_length. cbn. lia.
    + rewrite app_length. cbn. lia.
    + rewrite app_length. cbn in *. lia.
Qed.
Lemma steps_ok attempts : forall k n s, (n + k <= attempts)%nat -> state_ok attempts n s ->
  exists s', iter_o k (park_step u) s = Ok s' /\ state_ok attempts (n + k) s'.
Proof.
  induction k as [|k IH]; intros n s L H; cbn [iter_o].
  - exists s. split; [reflexivity|]. rewrite Nat.add_0_r. exact H.
  - destruct (step_ok attempts n s) as (s1 & E & H1); [lia|exact H|]. rewrite E. cbn [bind].
    destruct (IH (S n) s1) as (s2 & E2 & H2); [lia|exact H1|]. exists s2. split; [exact E2|]. replace (n + S k)%nat with (S n + k)%nat by lia. exact H2.
Qed.
Lemma park_ok attempts : (1 <= attempts)%nat -> exists s, park u attempts c = Ok s /\ state_ok attempts attempts s.
Proof.
  intro L. unfold park. destruct attempts as [|a]; [lia|]. cbn [repeat]. change (aset ((dzero, dzero) :: repeat (dzero, dzero) a) 0 (try_at u c)) with (Ok (try_at u c :: repeat (dzero, dzero) a)).
  cbn [bind]. replace (S a - 1)%nat with a by lia. apply (steps_ok (S a) a 1); [lia|].
  exists [0%nat], (repeat (dzero, dzero) a). split; [apply succeed_first|]. split; [|split].
  - f_equal; [|cbn; lia]. f_equal. cbn [map app]. unfold the_car. replace (c + 2 * 0)%nat with c by lia. reflexivity.
  - cbn. lia.
  - cbn. rewrite repeat_length. lia.
Qed.

(** A unit square holds at most one car. *)
Lemma same_floor a b : Zfloor a = Zfloor b -> Rabs (a - b) <= 1 + / 2 ^ 53.
Proof.
  intros E1. pose proof (Zfloor_lb a). pose proof (Zfloor_ub a). pose proof (Zfloor_lb b). pose proof (Zfloor_ub b). rewrite E1 in *.
  apply Rabs_le. lra.
Qed.
Lemma floor_near a b : Rabs (a - b) <= 1 + / 2 ^ 53 -> (Zfloor b - 2 <= Zfloor a <= Zfloor b + 2)%Z.
Proof.
  intros E. apply Rabs_le_inv in E. pose proof (Zfloor_lb a). pose proof (Zfloor_ub a). pose proof (Zfloor_lb b). pose proof (Zfloor_ub b).
  assert (Zfloor a < Zfloor b + 3)%Z by (apply lt_IZR; rewrite plus_IZR; lra).
  assert (Zfloor b < Zfloor a + 3)%Z by (apply lt_IZR; rewrite plus_IZR; lra). lia.
Qed.
Lemma floor_lt a : 0 <= a < 100 -> (0 <= Zfloor a < 100)%Z.
Proof.
  intros [A B]. assert (0 <= Zfloor a)%Z by (apply Zfloor_lub; exact A).
  assert (Zfloor a < 100)%Z by (apply lt_IZR; pose proof (Zfloor_lb a); lra). lia.
Qed.
Lemma spot_range n : 0 <= fst (spot u c n) < 100 /\ 0 <= snd (spot u c n) < 100.
Proof. destruct (the_car_ok n) as ((_ & A) & (_ & B) & <-). auto. Qed.

Lemma increasing_nodup : forall P, (forall i j, (i < j < length P)%nat -> (nth i P 0 < nth j P 0)%nat) -> NoDup P.
Proof.
  intros P H. apply (NoDup_nth P 0%nat). intros i j Li Lj E.
  destruct (Nat.lt_trichotomy i j) as [L|[L|L]]; [|exact L|].
  - specialize (H i j). lia.
  - specialize (H j i). lia.
Qed.
Lemma succeed_apart n P : succeed (spot u c) n P -> forall i j, In i P -> In j P -> i <> j -> ~ overlap (spot u c i) (spot u c j).
Proof.
  intros [_ B] i j Ii Ij N O. destruct (Nat.lt_ge_cases i j) as [L|L].
  - apply B in Ij. apply (proj2 Ij i Ii L O).
  - apply B in Ii. apply (proj2 Ii j Ij); [lia|]. destruct O as [O1 O2]. split; rewrite Rabs_minus_sym; assumption.
Qed.
Definition Zseq (a : Z) (n : nat) : list Z := map (fun i => a + Z.of_nat i)%Z (seq 0 n).
Lemma in_Zseq a n z : (a <= z < a + Z.of_nat n)%Z -> In z (Zseq a n).
Proof. intro H. apply in_map_iff. exists (Z.to_nat (z - a)). rewrite in_seq. lia. Qed.
Lemma Zseq_length a n : length (Zseq a n) = n.
Proof. unfold Zseq. rewrite map_length, seq_length. reflexivity. Qed.
Lemma distinct_squares n P : succeed (spot u c) n P -> NoDup (map (fun i => unit_square (spot u c i)) P).
Proof.
  intro H. assert (N : NoDup P) by (apply increasing_nodup, (proj1 H)).
  assert (J : forall i j, In i P -> In j P -> unit_square (spot u c i) = unit_square (spot u c j) -> i = j).
  { intros i j Ii Ij E. destruct (Nat.eq_dec i j) as [|Ne]; [assumption|exfalso].
    apply (succeed_apart n P H i j Ii Ij Ne). unfold unit_square in E. inversion E. split; apply same_floor; assumption. }
  clear H. induction N as [|i P Ni N IH]; cbn; [constructor|]. constructor.
  - intros I. apply in_map_iff in I. destruct I as (j & E & Ij). apply Ni. rewrite <- (J j i); [exact Ij|right; exact Ij|left; reflexivity|exact E].
  - apply IH. intros a b Ia Ib. apply J; right; assumption.
Qed.
Lemma bounded n P : succeed (spot u c) n P -> (length P <= length (squares (spot u c) n))%nat.
Proof.
  intro H. rewrite <- (map_length (fun i => unit_square (spot u c i)) P).
  apply NoDup_incl_length; [apply (distinct_squares n P H)|].
  intros q I. apply in_map_iff in I. destruct I as (j & <- & I). apply nodup_In, in_map_iff. exists j. split; [reflexivity|].
  apply in_seq. pose proof (succeed_lt n P H j I). lia.
Qed.
Lemma squares_bound n : (length (squares (spot u c) n) <= 100 * 100)%nat.
Proof.
  assert (X : (100 * 100 = length (list_prod (Zseq 0 100) (Zseq 0 100)))%nat) by (rewrite prod_length, Zseq_length; reflexivity).
  rewrite X. apply NoDup_incl_length; [apply NoDup_nodup|].
  intros q I. apply nodup_In, in_map_iff in I. destruct I as (j & <- & _). destruct (spot_range j) as [A B].
  apply floor_lt in A, B. unfold unit_square. apply in_prod; apply in_Zseq; lia.
Qed.
Definition around (q : Z * Z) : list (Z * Z) := list_prod (Zseq (fst q - 2) 5) (Zseq (snd q - 2) 5).
Lemma around_length (l : list (Z * Z)) : length (flat_map around l) = (25 * length l)%nat.
Proof.
  induction l as [|q l IH]; [reflexivity|]. cbn [flat_map]. rewrite app_length, IH. unfold around at 1.
  rewrite prod_length, !Zseq_length. cbn [length]. lia.
Qed.
Lemma covered n P : succeed (spot u c) n P -> (length (squares (spot u c) n) <= 25 * length P)%nat.
Proof.
  intro H. rewrite <- (map_length (fun i => unit_square (spot u c i)) P), <- around_length.
  apply NoDup_incl_length; [apply NoDup_nodup|].
  intros q I. apply nodup_In, in_map_iff in I. destruct I as (j & <- & I). apply in_seq in I. apply in_flat_map.
  destruct (in_dec Nat.eq_dec j P) as [Ij|Nj].
  - exists (unit_square (spot u c j)). split; [apply in_map_iff; eauto|]. unfold around, unit_square. cbn [fst snd]. apply in_prod; apply in_Zseq; lia.
  - destruct (existsb (fun m => Nat.ltb m j && hits (the_car m) (the_car j)) P) eqn:E.
    + apply existsb_exists in E. destruct E as (m & Im & E). apply andb_true_iff in E. destruct E as [_ E]. apply hits_spot in E.
      exists (unit_square (spot u c m)). split; [apply in_map_iff; eauto|]. destruct E as [E1 E2].
      rewrite Rabs_minus_sym in E1, E2. apply floor_near in E1, E2.
      unfold around. apply in_prod; apply in_Zseq; cbn [unit_square fst snd]; lia.
    + exfalso. apply Nj, (proj2 H). split; [lia|]. intros m Im L O. apply hits_spot in O.
      assert (X : existsb (fun m => Nat.ltb m j && hits (the_car m) (the_car j)) P = true).
      { apply existsb_exists. exists m. split; [exact Im|]. rewrite O. apply Nat.ltb_lt in L. rewrite L. reflexivity. }
      congruence.
Qed.
Lemma succeed_unique n P Q : succeed (spot u c) n P -> succeed (spot u c) n Q -> P = Q.
Proof.
  intros HP HQ. assert (S1 : forall j, In j P <-> In j Q).
  { intro j. induction j as [j IH] using lt_wf_ind. rewrite (proj2 HP j), (proj2 HQ j).
    split; intros [A B]; (split; [exact A|]); intros m Im L; apply B; try apply IH; assumption. }
  destruct HP as [A _], HQ as [B _]. revert Q A B S1. clear. induction P as [|p P IH]; intros [|q Q] A B S1.
  - reflexivity.
  - exfalso. apply (S1 q). left. reflexivity.
  - exfalso. apply (S1 p). left. reflexivity.
  - assert (A1 : forall j, In j P -> (p < j)%nat).
    { intros j I. apply (In_nth _ _ 0%nat) in I. destruct I as (i & L & <-). apply (A 0%nat (S i)). cbn. lia. }
    assert (B1 : forall j, In j Q -> (q < j)%nat).
    { intros j I. apply (In_nth _ _ 0%nat) in I. destruct I as (i & L & <-). apply (B 0%nat (S i)). cbn. lia. }
    assert (E : p = q).
    { destruct (proj1 (S1 p) (or_introl eq_refl)) as [E|E]; [auto|]. destruct (proj2 (S1 q) (or_introl eq_refl)) as [F|F]; [auto|].
      pose proof (A1 q F). pose proof (B1 p E). lia. }
    subst q. f_equal. apply IH.
    + intros i j H. apply (A (S i) (S j)). cbn. lia.
    + intros i j H. apply (B (S i) (S j)). cbn. lia.
    + intro j. split; intro I.
      * destruct (proj1 (S1 j) (or_intror I)) as [E|E]; [|exact E]. subst j. pose proof (A1 p I). lia.
      * destruct (proj2 (S1 j) (or_intror I)) as [E|E]; [|exact E]. subst j. pose proof (B1 p I). lia.
Qed.
End Park.
