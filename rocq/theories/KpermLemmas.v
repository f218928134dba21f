From Verif Require Import BaseLemmas TallyLemmas KpermModel.
Open Scope Z_scope.

(** Two lists in the same relative order. *)
Definition alike (w w' : list Z) : Prop :=
  length w = length w' /\
  forall i j, (i < length w)%nat -> (j < length w)%nat ->
    (nth i w 0 <=? nth j w 0) = (nth i w' 0 <=? nth j w' 0).

Lemma scan_ok : forall n w w' j k, alike w w' ->
  (k < length w)%nat -> (j + n <= length w)%nat ->
  exists k', kp_scan n w (Z.of_nat j) (nth k w 0) (Z.of_nat k) = Ok (Z.of_nat k') /\
    kp_scan n w' (Z.of_nat j) (nth k w' 0) (Z.of_nat k) = Ok (Z.of_nat k') /\
    (k' = k \/ (j <= k' < j + n)%nat).
Proof.
  induction n; intros w w' j k [L A] Hk Hj; cbn [kp_scan].
  - exists k. auto.
  - rewrite (aget_ok w (Z.of_nat j) 0), (aget_ok w' (Z.of_nat j) 0) by lia. cbn [bind].
    rewrite Nat2Z.id. rewrite (A k j) by lia.
    replace (Z.of_nat j + 1) with (Z.of_nat (S j)) by lia.
    destruct (nth k w' 0 <=? nth j w' 0).
    + destruct (IHn w w' (S j) j) as (k' & E & E' & D); [split; assumption|lia|lia|].
      exists k'. rewrite E, E'. repeat split; lia.
    + destruct (IHn w w' (S j) k) as (k' & E & E' & D); [split; assumption|lia|lia|].
      exists k'. rewrite E, E'. repeat split; lia.
Qed.

Definition swap (i k a : nat) : nat := if (a =? k)%nat then i else if (a =? i)%nat then k else a.

Lemma swap_lt : forall i k a n, (i < n -> k < n -> a < n -> swap i k a < n)%nat.
Proof. intros. unfold swap. destruct (a =? k)%nat, (a =? i)%nat; lia. Qed.

Definition swapped (w : list Z) (i k : nat) : list Z :=
  set_nth (set_nth w i (nth k w 0)) k (nth i w 0).

Lemma swapped_nth : forall w i k a, (i < length w -> k < length w -> a < length w ->
  nth a (swapped w i k) 0%Z = nth (swap i k a) w 0%Z)%nat.
Proof.
  intros w i k a Hi Hk Ha. unfold swapped, swap.
  destruct (Nat.eqb_spec a k) as [->|Nk].
  - rewrite nth_set_nth_eq by (rewrite set_nth_length; lia). reflexivity.
  - rewrite nth_set_nth_ne by lia. destruct (Nat.eqb_spec a i) as [->|Ni].
    + rewrite nth_set_nth_eq by lia. reflexivity.
    + rewrite nth_set_nth_ne by lia. reflexivity.
Qed.

Lemma swapped_length : forall w i k, length (swapped w i k) = length w.
Proof. intros. unfold swapped. rewrite !set_nth_length. reflexivity. Qed.

Lemma swapped_alike : forall w w' i k, alike w w' -> (i < length w)%nat -> (k < length w)%nat ->
  alike (swapped w i k) (swapped w' i k).
Proof.
  intros w w' i k [L A] Hi Hk. split; [rewrite !swapped_length; exact L|].
  rewrite swapped_length. intros a b Ha Hb. rewrite !swapped_nth by lia.
  apply A; apply swap_lt; assumption.
Qed.

Lemma loop_step : forall i w w' p, alike w w' -> (S i < length w)%nat ->
  exists k, (k <= S i)%nat /\
    kp_loop (S i) w p = kp_loop i (swapped w (S i) k) ((Z.of_nat (S i) + 1) * p + Z.of_nat k) /\
    kp_loop (S i) w' p = kp_loop i (swapped w' (S i) k) ((Z.of_nat (S i) + 1) * p + Z.of_nat k).
Proof.
  intros i w w' p A Hi. destruct (scan_ok (S i) w w' 1 0 A) as (k & E & E' & D); [lia|lia|].
  destruct A as [L A]. exists k. split; [lia|].
  change (Z.of_nat 1) with 1 in *. change (Z.of_nat 0) with 0 in *.
  assert (Step : forall u, length u = length w -> kp_scan (S i) u 1 (nth 0 u 0) 0 = Ok (Z.of_nat k) ->
    kp_loop (S i) u p = kp_loop i (swapped u (S i) k) ((Z.of_nat (S i) + 1) * p + Z.of_nat k)).
  { intros u Lu Eu. remember (S i) as m eqn:Em. rewrite Em at 1. cbn [kp_loop]. rewrite <- Em.
    rewrite (aget_ok u 0 0) by lia. cbn [bind]. change (Z.to_nat 0) with 0%nat. rewrite Eu. cbn [bind].
    rewrite (aget_ok u (Z.of_nat m) 0), (aget_ok u (Z.of_nat k) 0) by lia. cbn [bind].
    rewrite !Nat2Z.id. rewrite aset_ok by lia. cbn [bind]. rewrite aset_ok by (rewrite ?set_nth_length; lia).
    cbn [bind]. rewrite !Nat2Z.id. reflexivity. }
  split; apply Step; auto.
Qed.

Lemma loop_alike : forall i w w' p, alike w w' -> (i < length w)%nat -> kp_loop i w p = kp_loop i w' p.
Proof.
  induction i; intros w w' p A Hi; [reflexivity|].
  destruct (loop_step i w w' p A Hi) as (k & Hk & -> & ->).
  apply IHi; [|rewrite swapped_length; lia]. apply swapped_alike; [exact A|lia|lia].
Qed.

Lemma alike_refl : forall w, alike w w.
Proof. intro w. split; auto. Qed.

Lemma loop_range : forall i w p m, (i < length w)%nat -> 0 <= p < m ->
  exists r, kp_loop i w p = Ok r /\ 0 <= r < m * Z.of_nat (fact (S i)).
Proof.
  induction i; intros w p m Hi Hp.
  - exists p. split; [reflexivity|]. change (fact 1) with 1%nat. lia.
  - destruct (loop_step i w w p (alike_refl w) Hi) as (k & Hk & -> & _).
    destruct (IHi (swapped w (S i) k) ((Z.of_nat (S i) + 1) * p + Z.of_nat k) (Z.of_nat (S (S i)) * m))
      as (r & E & R); [rewrite swapped_length; lia|nia|].
    exists r. split; [exact E|]. change (fact (S (S i))) with (S (S i) * fact (S i))%nat.
    rewrite Nat2Z.inj_mul. nia.
Qed.

(** ** Ranks *)
Definition rank (w : list Z) (x : Z) : Z := Z.of_N (countp (fun y => y <? x) w).
Definition ranks (w : list Z) : list Z := map (rank w) w.

Lemma rank_mono : forall w x y, x <= y -> rank w x <= rank w y.
Proof.
  intros w x y H. unfold rank. induction w as [|z w IH]; cbn [countp]; [lia|].
  destruct (Z.ltb_spec z x), (Z.ltb_spec z y); lia.
Qed.

Lemma rank_strict : forall w x y, In x w -> x < y -> rank w x < rank w y.
Proof.
  intros w x y I H. induction w as [|z w IH]; [destruct I|].
  pose proof (rank_mono w x y ltac:(lia)) as M. unfold rank in *. cbn [countp].
  destruct I as [->|I].
  - destruct (Z.ltb_spec x x), (Z.ltb_spec x y); lia.
  - specialize (IH I). destruct (Z.ltb_spec z x), (Z.ltb_spec z y); lia.
Qed.

Lemma ranks_alike : forall w, alike w (ranks w).
Proof.
  intro w. split; [unfold ranks; rewrite map_length; reflexivity|].
  intros i j Hi Hj. unfold ranks.
  rewrite !(nth_indep (map (rank w) w) 0 (rank w 0)) by (rewrite map_length; lia).
  rewrite !map_nth. apply Bool.eq_iff_eq_true. rewrite !Z.leb_le. split; intro H.
  - apply rank_mono, H.
  - destruct (Z.le_gt_cases (nth i w 0) (nth j w 0)) as [L|G]; [exact L|].
    pose proof (rank_strict w (nth j w 0) (nth i w 0) (nth_In _ _ Hj) G). lia.
Qed.

Lemma rank_lt : forall w x, In x w -> 0 <= rank w x < Z.of_nat (length w).
Proof.
  intros w x I. split; [unfold rank; lia|].
  apply Z.lt_le_trans with (rank w (x + 1)); [apply rank_strict; [exact I|lia]|].
  unfold rank. pose proof (countp_le _ (fun y => y <? x + 1) w). lia.
Qed.

Lemma ranks_nodup : forall w, NoDup w -> NoDup (ranks w).
Proof.
  intros w H. unfold ranks. apply (NoDup_nth (map (rank w) w) 0). rewrite map_length.
  intros i j Hi Hj E. apply (proj1 (NoDup_nth w 0) H); auto.
  destruct (ranks_alike w) as [_ A]. pose proof (A i j Hi Hj) as A1. pose proof (A j i Hj Hi) as A2.
  unfold ranks in *. rewrite E in A1, A2. lia.
Qed.

(** the 120 orderings of 0..4 *)
Fixpoint tuples (n : nat) : list (list Z) :=
  match n with
  | O => [[]]
  | S m => flat_map (fun l => map (fun x => x :: l) [0; 1; 2; 3; 4]) (tuples m)
  end.
Fixpoint distinctb (l : list Z) : bool :=
  match l with [] => true | a :: r => negb (existsb (Z.eqb a) r) && distinctb r end.
Definition orderings : list (list Z) := filter distinctb (tuples 5).

Lemma in_tuples : forall n l, length l = n -> (forall x, In x l -> 0 <= x < 5) -> In l (tuples n).
Proof.
  induction n; intros [|a l] L B; cbn in L; try discriminate; [left; reflexivity|].
  cbn [tuples]. apply in_flat_map. exists l. split.
  - apply IHn; [congruence|]. intros x I. apply B. right. exact I.
  - apply in_map_iff. exists a. split; [reflexivity|].
    assert (0 <= a < 5) by (apply B; left; reflexivity).
    cbn [In]. lia.
Qed.

Lemma distinctb_ok : forall l, NoDup l -> distinctb l = true.
Proof.
  induction 1 as [|a l N _ IH]; [reflexivity|]. cbn [distinctb]. rewrite IH, andb_true_r.
  apply negb_true_iff. apply not_true_is_false. intro E. apply existsb_exists in E.
  destruct E as (x & I & E). apply Z.eqb_eq in E. congruence.
Qed.

Lemma in_orderings : forall w, length w = 5%nat -> NoDup w -> In (ranks w) orderings.
Proof.
  intros w L N. apply filter_In. split; [|apply distinctb_ok, ranks_nodup, N].
  apply in_tuples; [unfold ranks; rewrite map_length; exact L|].
  intros x I. unfold ranks in I. apply in_map_iff in I. destruct I as (y & <- & I).
  pose proof (rank_lt w y I). lia.
Qed.

Fixpoint nodupZ (l : list (outcome Z)) : bool :=
  match l with
  | [] => true
  | Ok a :: r => negb (existsb (fun o => match o with Ok b => a =? b | _ => true end) r) && nodupZ r
  | _ => false
  end.

Lemma nodupZ_inj : forall A (f : A -> outcome Z) l, nodupZ (map f l) = true ->
  forall x y, In x l -> In y l -> f x = f y -> x = y.
Proof.
  intros A f. induction l as [|a l IH]; intros H x y Ix Iy E; [destruct Ix|].
  cbn [map nodupZ] in H. destruct (f a) as [z| | |] eqn:Ea; try discriminate.
  apply andb_true_iff in H. destruct H as [H1 H2].
  assert (K : forall b, In b l -> f b <> Ok z).
  { intros b I F. apply negb_true_iff in H1. apply not_true_iff_false in H1. apply H1.
    apply existsb_exists. exists (f b). split; [apply in_map, I|]. rewrite F. lia. }
  destruct Ix as [->|Ix], Iy as [->|Iy]; auto.
  - exfalso. apply (K y Iy). congruence.
  - exfalso. apply (K x Ix). congruence.
Qed.

Lemma orderings_inj : nodupZ (map (fun w => kp_loop 4 w 0) orderings) = true.
Proof. vm_compute. reflexivity. Qed.

Lemma loop_inj : forall w w', length w = 5%nat -> length w' = 5%nat -> NoDup w -> NoDup w' ->
  (kp_loop 4 w 0 = kp_loop 4 w' 0 <-> alike w w').
Proof.
  intros w w' L L' N N'. split; intro H.
  - rewrite (loop_alike 4 w (ranks w)), (loop_alike 4 w' (ranks w')) in H
      by (try apply ranks_alike; lia).
    assert (E : ranks w = ranks w').
    { apply (nodupZ_inj _ _ _ orderings_inj); auto using in_orderings. }
    destruct (ranks_alike w) as [_ A], (ranks_alike w') as [_ A'].
    split; [congruence|]. intros i j Hi Hj. rewrite A, A' by lia. rewrite E. reflexivity.
  - apply loop_alike; [exact H|lia].
Qed.

(** ** The copy *)
Definition seen (v : list N) (off : N) (i : nat) : Z := s32 (nth ((i + N.to_nat off) mod 5) v 0%N).

Lemma copy_ok : forall v off, length v = 5%nat -> (off < 5)%N ->
  kp_copy 5 0 v off = Ok (map (seen v off) [0; 1; 2; 3; 4]%nat).
Proof.
  intros v off L H.
  assert (G : forall n i, (i + N.of_nat n <= 5)%N ->
    kp_copy n i v off = Ok (map (seen v off) (seq (N.to_nat i) n))).
  { induction n; intros i Hi; cbn [kp_copy seq map]; [reflexivity|].
    unfold add32. rewrite w32_small by lia.
    assert ((i + off) mod 5 < 5)%N by (apply N.mod_lt; lia).
    rewrite (aget_ok v _ 0%N) by lia. cbn [bind]. rewrite IHn by lia. cbn [bind].
    replace (N.to_nat (i + 1)) with (S (N.to_nat i)) by lia. do 2 f_equal.
    unfold seen. do 2 f_equal. rewrite <- Z_N_nat, N2Z.id, N2Nat.inj_mod by lia. change (N.to_nat 5) with 5%nat. f_equal. lia. }
  exact (G 5%nat 0%N ltac:(lia)).
Qed.

Lemma kperm_ok : forall v off, length v = 5%nat -> (off < 5)%N ->
  kperm v off = kp_loop 4 (map (seen v off) [0; 1; 2; 3; 4]%nat) 0 /\
  exists r, kperm v off = Ok r /\ 0 <= r < 120.
Proof.
  intros v off L H. unfold kperm. rewrite copy_ok by assumption. cbn [bind]. split; [reflexivity|].
  destruct (loop_range 4 (map (seen v off) [0; 1; 2; 3; 4]%nat) 0 1) as (r & E & R); [cbn; lia|lia|].
  exists r. split; [exact E|]. change (Z.of_nat (fact 5)) with 120 in R. lia.
Qed.
