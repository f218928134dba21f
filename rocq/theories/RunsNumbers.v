(** The moments of the counts of runs as integers, in units of 1/14!. *)
From Coq Require Import Lia Lra Bool.
From Verif Require Export RunsLaw.
Open Scope nat_scope.

Definition btab : list (list Z) :=
  [[1; 0; 0; 0; 0; 0; 0; 0; 0; 0; 0; 0; 0; 0; 0];
   [1; 1; 0; 0; 0; 0; 0; 0; 0; 0; 0; 0; 0; 0; 0];
   [1; 2; 1; 0; 0; 0; 0; 0; 0; 0; 0; 0; 0; 0; 0];
   [1; 3; 3; 1; 0; 0; 0; 0; 0; 0; 0; 0; 0; 0; 0];
   [1; 4; 6; 4; 1; 0; 0; 0; 0; 0; 0; 0; 0; 0; 0];
   [1; 5; 10; 10; 5; 1; 0; 0; 0; 0; 0; 0; 0; 0; 0];
   [1; 6; 15; 20; 15; 6; 1; 0; 0; 0; 0; 0; 0; 0; 0];
   [1; 7; 21; 35; 35; 21; 7; 1; 0; 0; 0; 0; 0; 0; 0];
   [1; 8; 28; 56; 70; 56; 28; 8; 1; 0; 0; 0; 0; 0; 0];
   [1; 9; 36; 84; 126; 126; 84; 36; 9; 1; 0; 0; 0; 0; 0];
   [1; 10; 45; 120; 210; 252; 210; 120; 45; 10; 1; 0; 0; 0; 0];
   [1; 11; 55; 165; 330; 462; 462; 330; 165; 55; 11; 1; 0; 0; 0];
   [1; 12; 66; 220; 495; 792; 924; 792; 495; 220; 66; 12; 1; 0; 0];
   [1; 13; 78; 286; 715; 1287; 1716; 1716; 1287; 715; 286; 78; 13; 1; 0];
   [1; 14; 91; 364; 1001; 2002; 3003; 3432; 3003; 2002; 1001; 364; 91; 14; 1]]%Z.
Definition qtab : list Z := [87178291200; 87178291200; 43589145600; 14529715200; 3632428800; 726485760; 121080960; 17297280; 2162160; 240240; 24024; 2184; 182; 14; 1]%Z.
Definition binz (n k : nat) : Z := nth k (nth n btab []) 0%Z.
Definition q14 (m : nat) : Z := nth m qtab 0%Z.
Definition f14 : Z := 87178291200.

Lemma btab_check : forallb (fun n => forallb (fun k => Z.eqb (binz n k) (Z.of_nat (binom n k))) (seq 0 15)) (seq 0 15) = true.
Proof. vm_compute. reflexivity. Qed.
Lemma binz_ok n k : n < 15 -> k < 15 -> Z.of_nat (binom n k) = binz n k.
Proof.
  intros A B. pose proof btab_check as C. rewrite forallb_forall in C. specialize (C n ltac:(apply in_seq; lia)). rewrite forallb_forall in C.
  specialize (C k ltac:(apply in_seq; lia)). apply Z.eqb_eq in C. now symmetry.
Qed.
Lemma q14_ok : forall m, m <= 14 -> (INR (fact m) * IZR (q14 m) = IZR f14)%R.
Proof.
  induction m as [|m IH]; intro H; [change (fact 0) with 1; change (q14 0) with f14; change (INR 1) with 1%R; ring|]. rewrite <- IH by lia. change (fact (S m)) with (S m * fact m). rewrite mult_INR.
  assert (E : q14 m = (q14 (S m) * Z.of_nat (S m))%Z) by (do 14 (destruct m as [|m]; [reflexivity|]); lia).
  rewrite E, mult_IZR, <- INR_IZR_INZ. ring.
Qed.

Fixpoint zcount (k : nat) (l : pattern) : Z :=
  match l with
  | [] => 1
  | o :: r =>
    match o with
    | None => (binz (k + S (length r)) k * zcount 1 r)%Z
    | Some true => zcount (S k) r
    | Some false => (binz (k + S (length r)) k * zcount 1 r - zcount (S k) r)%Z
    end
  end.
Lemma zcount_ok : forall l k, k + length l <= 14 -> pcount k l = zcount k l.
Proof.
  induction l as [|o l IH]; intros k H; [reflexivity|]. cbn [length] in H. cbn [pcount zcount]. rewrite binz_ok, !IH by lia. reflexivity.
Qed.
Open Scope R_scope.
Definition prz (l : pattern) : Z := (zcount 1 l * q14 (S (length l)))%Z.
Lemma f14_pos : 0 < IZR f14.
Proof. unfold f14. lra. Qed.
Lemma prob_Z l : (length l <= 13)%nat -> prob l = IZR (prz l) / IZR f14.
Proof.
  intro H. unfold prob, pr, prz. rewrite zcount_ok by lia. change (1 + length l)%nat with (S (length l)). rewrite <- (q14_ok (S (length l))) by lia. rewrite mult_IZR.
  field. split; [|apply Rgt_not_eq, fact_pos]. intro K. pose proof (q14_ok (S (length l)) ltac:(lia)) as Q. rewrite K in Q. pose proof f14_pos. lra.
Qed.
Definition pairz (d : nat) (l m : pattern) : Z := match meet l (repeat None d ++ m) with Some r => prz r | None => 0%Z end.
Lemma pair_Z d l m : length l = 6%nat -> length m = 6%nat -> (d <= 6)%nat -> pair d l m = IZR (pairz d l m) / IZR f14.
Proof.
  intros L M H. unfold pair, pairz. destruct (meet l _) as [r|] eqn:E; [|unfold Rdiv; ring]. apply prob_Z. apply meet_length in E. rewrite app_length, repeat_length in E. lia.
Qed.
Definition kernz (l m : pattern) : Z :=
  (lsum (seq 0 7) (fun d => pairz d l m) + lsum (seq 0 6) (fun d => pairz (S d) m l) - 13 * 3432 * (zcount 1 l * zcount 1 m))%Z.
Lemma rsum_div n f c : rsum n (fun k => IZR (f k) / c) = IZR (lsum (seq 0 n) f) / c.
Proof. rewrite lsum_rsum. unfold Rdiv. rewrite Rmult_comm, rsum_scale. apply rsum_ext. intros; ring. Qed.
Lemma kern_Z l m : length l = 6%nat -> length m = 6%nat -> kern l m = IZR (kernz l m) / IZR f14.
Proof.
  intros L M. unfold kern, near. rewrite (rsum_ext 7 _ (fun d => IZR (pairz d l m) / IZR f14)) by (intros; apply pair_Z; lia).
  rewrite (rsum_ext 6 _ (fun d => IZR (pairz (S d) m l) / IZR f14)) by (intros; apply pair_Z; lia). rewrite !rsum_div. unfold kernz. rewrite minus_IZR, plus_IZR, !mult_IZR.
  unfold prob, pr. rewrite !zcount_ok by lia. rewrite L, M. replace (INR (fact (1 + 6))) with 5040 by (rewrite INR_IZR_INZ; reflexivity). unfold f14. field.
Qed.
Definition oprz (o : option pattern) : Z := match o with Some l => prz l | None => 0%Z end.
Definition okernz (o : option pattern) (m : pattern) : Z := match o with Some l => kernz l m | None => 0%Z end.
Definition opairz (u v : nat) (o p : option pattern) : Z :=
  match o, p with Some l, Some m => if (u <=? v)%nat then pairz (v - u) l m else pairz (u - v) m l | _, _ => 0%Z end.
Definition shiftz (i : nat) : Z := lsum (seq 0 6) (fun u => oprz (rpat u i) - prz (gpat i))%Z.
Definition crossz (i j : nat) : Z := lsum (seq 0 6) (fun u => okernz (rpat u i) (gpat j) - kernz (gpat i) (gpat j))%Z.
Definition edgez (i j : nat) : Z := lsum (seq 0 6) (fun u => lsum (seq 0 6) (fun v =>
  opairz u v (rpat u i) (rpat v j) - opairz u v (rpat u i) (Some (gpat j)) - opairz u v (Some (gpat i)) (rpat v j) + opairz u v (Some (gpat i)) (Some (gpat j)))%Z).

Lemma oprob_Z o : len6 o -> oprob o = IZR (oprz o) / IZR f14.
Proof. intro L. destruct o as [l|]; cbn [oprob oprz]; [|unfold Rdiv; ring]. apply prob_Z. rewrite (L l eq_refl). lia. Qed.
Lemma okern_Z o m : len6 o -> length m = 6%nat -> okern o m = IZR (okernz o m) / IZR f14.
Proof. intros L M. destruct o as [l|]; cbn [okern okernz]; [|unfold Rdiv; ring]. apply kern_Z; [apply L; reflexivity|exact M]. Qed.
Lemma opair_Z u v o p : (u < 6)%nat -> (v < 6)%nat -> len6 o -> len6 p -> opair u v o p = IZR (opairz u v o p) / IZR f14.
Proof.
  intros Hu Hv L M. destruct o as [l|]; [|cbn; unfold Rdiv; ring]. destruct p as [m|]; [|cbn; unfold Rdiv; ring]. cbn [opair opairz].
  specialize (L l eq_refl). specialize (M m eq_refl). destruct (u <=? v)%nat; apply pair_Z; lia.
Qed.
Lemma shift_Z i : shift i = IZR (shiftz i) / IZR f14.
Proof.
  unfold shift, shiftz. rewrite <- rsum_div. apply rsum_ext. intros u Hu. rewrite oprob_Z by apply len6_r. rewrite prob_Z by (rewrite gpat_length; lia). rewrite minus_IZR. unfold Rdiv. ring.
Qed.
Lemma cross_Z i j : cross i j = IZR (crossz i j) / IZR f14.
Proof.
  unfold cross, crossz. rewrite <- rsum_div. apply rsum_ext. intros u Hu. rewrite okern_Z, kern_Z by (apply len6_r || apply gpat_length). rewrite minus_IZR. unfold Rdiv. ring.
Qed.
Lemma edge_Z i j : edge i j = IZR (edgez i j) / IZR f14.
Proof.
  unfold edge, edgez. rewrite <- rsum_div. apply rsum_ext. intros u Hu. rewrite <- rsum_div. apply rsum_ext. intros v Hv.
  rewrite !opair_Z by (assumption || apply len6_r || apply len6_g). rewrite plus_IZR, !minus_IZR. unfold Rdiv. ring.
Qed.
