(** From the checked tables to sums: inverse times covariance matrix. *)
From Coq Require Import Lia Bool.
From Verif Require Export OpermAverage OpermCert.
Open Scope Z_scope.

Notation S120 := (seq 0 120).
Lemma lsum_map {A B} (g : A -> B) (l : list A) f : lsum (map g l) f = lsum l (fun x => f (g x)).
Proof. induction l as [|x l IH]; [reflexivity|]. cbn [map]. rewrite !lsum_cons, IH. reflexivity. Qed.
Lemma lsum_seq_S n f : lsum (seq 0 (S n)) f = f O + lsum (seq 0 n) (fun k => f (S k)).
Proof. cbn [seq]. rewrite lsum_cons, <- seq_shift, lsum_map. reflexivity. Qed.
Lemma dot_sum : forall n c p, length c = n -> length p = n -> dot c p = lsum (seq 0 n) (fun l => nth l c 0 * nth l p 0).
Proof.
  induction n as [|n IH]; intros [|x c] [|y p] H1 H2; try discriminate; [reflexivity|].
  rewrite lsum_seq_S. cbn [dot nth]. rewrite (IH c p) by (cbn in *; lia). reflexivity.
Qed.
Lemma fold_sum g : forall n c, length c = n -> fold_right (fun x a => g x + a) 0 c = lsum (seq 0 n) (fun l => g (nth l c 0)).
Proof.
  induction n as [|n IH]; intros [|x c] H; try discriminate; [reflexivity|]. rewrite lsum_seq_S. cbn [fold_right nth].
  rewrite (IH c) by (cbn in H; lia). reflexivity.
Qed.
Lemma lsum_le {A} (l : list A) f g : (forall x, In x l -> f x <= g x) -> lsum l f <= lsum l g.
Proof. induction l as [|x l IH]; intro H; [reflexivity|]. rewrite !lsum_cons. pose proof (H x (or_introl eq_refl)). specialize (IH (fun y Y => H y (or_intror Y))). lia. Qed.
Lemma lsum_abs {A} (l : list A) f : Z.abs (lsum l f) <= lsum l (fun x => Z.abs (f x)).
Proof. induction l as [|x l IH]; [reflexivity|]. rewrite !lsum_cons. lia. Qed.
Lemma lsum_perm {A} (l m : list A) f : Permutation l m -> lsum l f = lsum m f.
Proof. induction 1; rewrite ?lsum_cons; lia. Qed.

Definition ent (k l : nat) : Z := entry pseudo_inv k l.
Definition ff (k : nat) : nat := nth k first_four 0%nat.
Definition lf (k : nat) : nat := nth k last_four 0%nat.

Lemma shapes : length cov_table = 120%nat /\ length pseudo_inv = 120%nat /\
  (forall i, (i < 120)%nat -> length (nth i cov_table []) = 120%nat) /\ (forall i, (i < 120)%nat -> length (nth i pseudo_inv []) = 120%nat) /\
  length first_four = 120%nat /\ length last_four = 120%nat /\ (forall k, (k < 120)%nat -> (ff k < 24)%nat) /\ (forall k, (k < 120)%nat -> (lf k < 24)%nat).
Proof.
  pose proof shape_check as C. unfold tables_shape in C. rewrite !andb_true_iff, !Nat.eqb_eq, !forallb_forall in C.
  destruct C as (((((((A & B) & D) & E) & F) & G) & H) & I).
  repeat (split; [assumption|]). split; [|split; [|split; [assumption|split; [assumption|split]]]].
  - intros i Hi. apply Nat.eqb_eq, D, nth_In. lia.
  - intros i Hi. apply Nat.eqb_eq, E, nth_In. lia.
  - intros k Hk. apply Nat.ltb_lt, H, nth_In. lia.
  - intros k Hk. apply Nat.ltb_lt, I, nth_In. lia.
Qed.
Lemma cov_entry i j : (i < 120)%nat -> (j < 120)%nat -> entry cov_table i j = covz i j.
Proof. intros Hi Hj. apply Z.eqb_eq. exact (all120_ok _ (all120_ok _ cov_table_check i Hi) j Hj). Qed.
Lemma covz_sym i j : covz i j = covz j i.
Proof. unfold covz, lag. rewrite (Nat.eqb_sym i j). lia. Qed.

(** inverse times column j of the matrix *)
Definition prod (k j : nat) : Z := lsum S120 (fun l => covz l j * ent k l).
Lemma prod_dot k j : (k < 120)%nat -> (j < 120)%nat -> dot (nth j cov_table []) (nth k pseudo_inv []) = prod k j.
Proof.
  intros Hk Hj. destruct shapes as (_ & _ & A & B & _). rewrite (dot_sum 120) by auto. unfold prod. apply lsum_ext. intros l Hl. apply in_seq in Hl.
  unfold ent, entry. rewrite covz_sym, <- cov_entry by lia. reflexivity.
Qed.
Definition delta (k j : nat) : Z := if Nat.eqb k j then unitz else 0.
Definition good (eps : Z) (j : nat) : Prop := exists (z : nat -> Z) (z0 : Z), forall k, (k < 120)%nat ->
  Z.abs (prod k j - delta k j - (z (ff k) - z (lf k) + z0)) <= eps.
Lemma reps_good j : is_rep j = true -> (j < 120)%nat -> good epsz j.
Proof.
  intros R Hj. unfold is_rep in R. apply existsb_exists in R. destruct R as (r & R & E). apply Nat.eqb_eq in E. subst r.
  destruct (In_nth reps j 0%nat R) as (t & Ht & Et).
  assert (LC : length certs = length reps) by reflexivity.
  assert (I : In (j, nth t certs ([], 0)) (combine reps certs)).
  { rewrite <- Et, <- combine_nth by now symmetry. apply nth_In. rewrite combine_length, LC. lia. }
  pose proof cert_check as C. rewrite forallb_forall in C. specialize (C _ I). cbn [fst snd] in C. destruct (nth t certs ([], 0)) as (z, z0). cbn [fst snd] in C.
  exists (fun m => nth m z 0), z0. intros k Hk. pose proof (all120_ok _ C k Hk) as D. cbn beta in D. apply Z.leb_le in D.
  rewrite prod_dot in D by assumption. exact D.
Qed.

(** symmetries carry good columns to good columns *)
Lemma width j : (j < 120)%nat -> lsum S120 (fun l => Z.abs (covz l j)) <= 236488.
Proof.
  intro Hj. pose proof (all120_ok _ width_check j Hj) as W. cbn beta in W. apply Z.leb_le in W. destruct shapes as (_ & _ & A & _).
  rewrite (fold_sum Z.abs 120) in W by auto. rewrite (lsum_ext _ _ (fun l => Z.abs (nth l (nth j cov_table []) 0))); [exact W|].
  intros l Hl. apply in_seq in Hl. rewrite covz_sym, <- cov_entry by lia. reflexivity.
Qed.
Lemma symmetry g (t : list nat) h a b c d : (forall k, g k = nth k t 0%nat) ->
  perm_check t && cov_invariant t && inv_invariant t && carries t h a b && carries t h c d = true ->
  (forall k, (k < 120)%nat -> (g k < 120)%nat /\ g (g k) = k) /\
  (forall i j, (i < 120)%nat -> (j < 120)%nat -> covz (g i) (g j) = covz i j) /\
  (forall i j, (i < 120)%nat -> (j < 120)%nat -> Z.abs (ent (g i) (g j) - ent i j) <= 1000) /\
  (forall k, (k < 120)%nat -> nth (g k) b 0%nat = nth (nth k a 0%nat) h 0%nat) /\
  (forall k, (k < 120)%nat -> nth (g k) d 0%nat = nth (nth k c 0%nat) h 0%nat).
Proof.
  intros G C. rewrite !andb_true_iff in C. destruct C as ((((P & CI) & II) & A) & B). unfold perm_check in P. apply andb_true_iff in P. destruct P as (P1 & P2).
  assert (R : forall k, (k < 120)%nat -> (g k < 120)%nat /\ g (g k) = k).
  { intros k Hk. pose proof (all120_ok _ P1 k Hk) as X. pose proof (all120_ok _ P2 k Hk) as Y. cbn beta in X, Y. apply Nat.ltb_lt in X. apply Nat.eqb_eq in Y. rewrite !G. auto. }
  split; [exact R|]. split; [|split; [|split]].
  - intros i j Hi Hj. rewrite <- !cov_entry; try assumption; try now apply R. rewrite !G. apply Z.eqb_eq. exact (all120_ok _ (all120_ok _ CI i Hi) j Hj).
  - intros i j Hi Hj. unfold ent. rewrite !G. apply Z.leb_le. exact (all120_ok _ (all120_ok _ II i Hi) j Hj).
  - intros k Hk. rewrite G. apply Nat.eqb_eq. exact (all120_ok _ A k Hk).
  - intros k Hk. rewrite G. apply Nat.eqb_eq. exact (all120_ok _ B k Hk).
Qed.
Lemma involution_perm (g : nat -> nat) : (forall k, (k < 120)%nat -> (g k < 120)%nat /\ g (g k) = k) -> Permutation (map g S120) S120.
Proof.
  intro R. apply NoDup_Permutation_bis.
  - apply (NoDup_map_inv g). rewrite map_map, (map_ext_in _ (fun k => k)), map_id; [apply seq_NoDup|]. intros k Hk. apply in_seq in Hk. apply R. lia.
  - rewrite map_length. lia.
  - intros x X. apply in_map_iff in X. destruct X as (k & <- & Hk). apply in_seq in Hk. apply in_seq. pose proof (proj1 (R k ltac:(lia))). lia.
Qed.
Lemma prod_moves g : (forall k, (k < 120)%nat -> (g k < 120)%nat /\ g (g k) = k) ->
  (forall i j, (i < 120)%nat -> (j < 120)%nat -> covz (g i) (g j) = covz i j) ->
  (forall i j, (i < 120)%nat -> (j < 120)%nat -> Z.abs (ent (g i) (g j) - ent i j) <= 1000) ->
  forall k j, (k < 120)%nat -> (j < 120)%nat -> Z.abs (prod (g k) (g j) - prod k j) <= 236488000.
Proof.
  intros R CI II k j Hk Hj. unfold prod. rewrite <- (lsum_perm _ _ _ (involution_perm g R)), lsum_map.
  rewrite (lsum_ext _ (fun x => covz (g x) (g j) * ent (g k) (g x)) (fun l => covz l j * ent k l + covz l j * (ent (g k) (g l) - ent k l))).
  2:{ intros l Hl. apply in_seq in Hl. rewrite CI by lia. lia. }
  rewrite lsum_plus. replace (lsum S120 (fun x => covz x j * ent k x) + lsum S120 (fun x => covz x j * (ent (g k) (g x) - ent k x)) - lsum S120 (fun l => covz l j * ent k l))
    with (lsum S120 (fun x => covz x j * (ent (g k) (g x) - ent k x))) by lia.
  eapply Z.le_trans; [apply lsum_abs|]. eapply Z.le_trans; [apply (lsum_le _ _ (fun l => Z.abs (covz l j) * 1000))|].
  - intros l Hl. apply in_seq in Hl. rewrite Z.abs_mul. pose proof (II k l Hk ltac:(lia)). nia.
  - rewrite lsum_scale_r. pose proof (width j Hj). lia.
Qed.
Lemma delta_moves (g : nat -> nat) : (forall k, (k < 120)%nat -> (g k < 120)%nat /\ g (g k) = k) ->
  forall k j, (k < 120)%nat -> (j < 120)%nat -> delta (g k) (g j) = delta k j.
Proof.
  intros R k j Hk Hj. unfold delta. destruct (Nat.eqb_spec (g k) (g j)) as [E|E], (Nat.eqb_spec k j) as [F|F]; try reflexivity; [|congruence].
  exfalso. apply F. destruct (R k Hk) as (_ & <-), (R j Hj) as (_ & <-). now rewrite E.
Qed.
Definition updown (k : nat) : nat := nth k upside_down 0%nat.
Definition back (k : nat) : nat := nth k backwards 0%nat.
Definition updown_ok := symmetry updown upside_down upside_down4 first_four first_four last_four last_four (fun _ => eq_refl) upside_down_check.
Definition back_ok := symmetry back backwards backwards4 first_four last_four last_four first_four (fun _ => eq_refl) backwards_check.
Lemma good_updown eps j : (j < 120)%nat -> good eps j -> good (eps + 236488000) (updown j).
Proof.
  intros Hj (z & z0 & G). destruct updown_ok as (R & CI & II & A & B).
  exists (fun m => z (nth m upside_down4 0%nat)), z0.
  intros k' Hk'. destruct (R k' Hk') as (Hk & E). set (k := updown k') in *.
  specialize (G k Hk). pose proof (prod_moves updown R CI II k j Hk Hj) as M. pose proof (delta_moves updown R k j Hk Hj) as D. rewrite E in M, D.
  specialize (A k' Hk'). specialize (B k' Hk'). fold (ff k') in A. fold (lf k') in B. fold k in A, B. fold (ff k) in A. fold (lf k) in B. rewrite <- A, <- B, D. lia.
Qed.
Lemma good_back eps j : (j < 120)%nat -> good eps j -> good (eps + 236488000) (back j).
Proof.
  intros Hj (z & z0 & G). destruct back_ok as (R & CI & II & A & B).
  exists (fun m => - z (nth m backwards4 0%nat)), z0.
  intros k' Hk'. destruct (R k' Hk') as (Hk & E). set (k := back k') in *.
  specialize (G k Hk). pose proof (prod_moves back R CI II k j Hk Hj) as M. pose proof (delta_moves back R k j Hk Hj) as D. rewrite E in M, D.
  specialize (A k' Hk'). specialize (B k' Hk'). fold (ff k') in A. fold (lf k') in B. fold k in A, B. fold (lf k) in A. fold (ff k) in B. rewrite <- A, <- B, D. lia.
Qed.
Lemma good_weaken e e' j : e <= e' -> good e j -> good e' j.
Proof. intros H (z & z0 & G). exists z, z0. intros k Hk. specialize (G k Hk). lia. Qed.
Definition errz : Z := 1680000000.
Lemma all_good j : (j < 120)%nat -> good errz j.
Proof.
  intro Hj. pose proof (all120_ok _ reps_check j Hj) as C. cbn beta in C. rewrite !orb_true_iff in C.
  destruct (proj1 updown_ok j Hj) as (U1 & U2). destruct (proj1 back_ok j Hj) as (B1 & B2). destruct (proj1 updown_ok (back j) B1) as (V1 & V2).
  destruct C as [[[C|C]|C]|C].
  - apply (good_weaken epsz); [unfold epsz, errz; lia|]. now apply reps_good.
  - rewrite <- U2. apply (good_weaken (epsz + 236488000)); [unfold epsz, errz; lia|]. apply good_updown; [exact U1|]. now apply reps_good.
  - rewrite <- B2. apply (good_weaken (epsz + 236488000)); [unfold epsz, errz; lia|]. apply good_back; [exact B1|]. now apply reps_good.
  - rewrite <- B2. apply (good_weaken (epsz + 236488000 + 236488000)); [unfold epsz, errz; lia|]. apply good_back; [exact B1|].
    rewrite <- V2. apply good_updown; [exact V1|]. now apply reps_good.
Qed.

(** ** the vectors the matrix sends to zero *)
Lemma addat_dot (z : nat -> Z) : forall l m c s, (m < length l)%nat ->
  lsum (seq s (length (addat m c l))) (fun t => nth (t - s) (addat m c l) 0 * z t) = lsum (seq s (length l)) (fun t => nth (t - s) l 0 * z t) + c * z (s + m)%nat.
Proof.
  assert (Sh : forall x l s, lsum (seq (S s) (length l)) (fun t => nth (t - s) (x :: l) 0 * z t) = lsum (seq (S s) (length l)) (fun t => nth (t - S s) l 0 * z t)).
  { intros x l s. apply lsum_ext. intros t Ht. apply in_seq in Ht. replace (t - s)%nat with (S (t - S s)) by lia. reflexivity. }
  induction l as [|x l IH]; intros m c s H; [cbn in H; lia|]. destruct m as [|m]; cbn [addat length seq]; rewrite !lsum_cons, !Sh, Nat.sub_diag; cbn [nth].
  - rewrite Nat.add_0_r. lia.
  - rewrite IH by (cbn in H; lia). replace (S s + m)%nat with (s + S m)%nat by lia. lia.
Qed.
Lemma addat_length m c : forall l, length (addat m c l) = length l.
Proof. intro l. revert m. induction l as [|x l IH]; intros [|m]; cbn; auto. Qed.
Definition zdot (z : nat -> Z) (l : list Z) : Z := lsum (seq 0 (length l)) (fun t => nth (t - 0) l 0 * z t).
Lemma groups_dot z : forall n c a b acc, length c = n -> length a = n -> length b = n -> length acc = 24%nat ->
  (forall k, (k < n)%nat -> (nth k a 0 < 24)%nat) -> (forall k, (k < n)%nat -> (nth k b 0 < 24)%nat) ->
  zdot z (groups c a b acc) = zdot z acc + lsum (seq 0 n) (fun k => nth k c 0 * (z (nth k a 0%nat) - z (nth k b 0%nat))).
Proof.
  induction n as [|n IH]; intros [|x c] [|m a] [|p b] acc Hc Ha Hb L A B; try discriminate; [cbn [groups seq]; change (@lsum nat [] ?f) with 0; lia|].
  cbn [groups]. rewrite IH; try (cbn in *; lia); rewrite ?addat_length; try assumption.
  - unfold zdot at 1. rewrite addat_dot by (rewrite addat_length, L; apply (A 0%nat); lia).
    rewrite addat_dot by (rewrite L; apply (B 0%nat); lia). rewrite lsum_seq_S. cbn [nth Nat.add]. unfold zdot. lia.
  - intros k Hk. apply (A (S k)). lia.
  - intros k Hk. apply (B (S k)). lia.
Qed.
Lemma cov_null i (z : nat -> Z) : (i < 120)%nat -> lsum S120 (fun k => covz i k * (z (ff k) - z (lf k))) = 0 /\ lsum S120 (fun k => covz i k) = 0.
Proof.
  intro Hi. pose proof (all120_ok _ null_check i Hi) as C. cbn beta in C. apply andb_true_iff in C. destruct C as (C & D). apply Z.eqb_eq in D.
  destruct shapes as (_ & _ & A & _ & F1 & F2 & F3 & F4). split.
  - pose proof (groups_dot z 120 (nth i cov_table []) first_four last_four (repeat 0 24) (A i Hi) F1 F2 eq_refl F3 F4) as G.
    unfold zero24 in C. apply andb_true_iff in C. destruct C as (C1 & C2). rewrite forallb_forall in C2.
    assert (Z0 : forall l, (forall x, In x l -> (0 =? x) = true) -> zdot z l = 0).
    { intros l H. unfold zdot. rewrite (lsum_ext _ _ (fun _ => 0)), lsum_const; [lia|]. intros t Ht. apply in_seq in Ht. rewrite Nat.sub_0_r.
      assert (In (nth t l 0) l) by (apply nth_In; lia). apply H in H0. apply Z.eqb_eq in H0. rewrite <- H0. lia. }
    rewrite (Z0 _ C2) in G. rewrite (Z0 (repeat 0 24)) in G by (intros x X; apply repeat_spec in X; now subst).
    rewrite (lsum_ext _ _ (fun k => nth k (nth i cov_table []) 0 * (z (ff k) - z (lf k)))); [unfold ff, lf in *; lia|].
    intros k Hk. apply in_seq in Hk. rewrite <- cov_entry by lia. reflexivity.
  - rewrite (fold_sum (fun x => x) 120) in D by auto. rewrite <- D. apply lsum_ext. intros k Hk. apply in_seq in Hk. rewrite <- cov_entry by lia. reflexivity.
Qed.
Lemma inverse_Z i j : (i < 120)%nat -> (j < 120)%nat ->
  Z.abs (lsum S120 (fun k => covz i k * prod k j) - unitz * covz i j) <= 236488 * errz.
Proof.
  intros Hi Hj. destruct (all_good j Hj) as (z & z0 & G).
  set (e := fun k => prod k j - delta k j - (z (ff k) - z (lf k) + z0)) in G.
  destruct (cov_null i z Hi) as (N1 & N2).
  assert (D : lsum S120 (fun k => covz i k * delta k j) = unitz * covz i j).
  { clear - Hj. assert (X : forall s n, lsum (seq s n) (fun k => covz i k * delta k j) = if ((s <=? j) && (j <? s + n))%nat then unitz * covz i j else 0).
    { intros s n. revert s. induction n as [|n IH]; intro s; cbn [seq].
      - destruct (Nat.leb_spec s j), (Nat.ltb_spec j (s + 0)); cbn; lia || reflexivity.
      - rewrite lsum_cons, IH. unfold delta. destruct (Nat.eqb_spec s j) as [->|Ne]; destruct (Nat.leb_spec s j) || destruct (Nat.leb_spec j j);
          repeat match goal with |- context [(?a <=? ?b)%nat] => destruct (Nat.leb_spec a b) | |- context [(?a <? ?b)%nat] => destruct (Nat.ltb_spec a b) end; cbn [andb]; lia. }
    rewrite X. destruct (Nat.leb_spec 0 j), (Nat.ltb_spec j (0 + 120)); cbn [andb]; lia || reflexivity. }
  assert (E : lsum S120 (fun k => covz i k * prod k j) - unitz * covz i j = lsum S120 (fun k => covz i k * e k)).
  { rewrite <- D. rewrite (lsum_ext _ (fun k => covz i k * prod k j) (fun k => covz i k * e k + covz i k * delta k j + covz i k * (z (ff k) - z (lf k)) + z0 * covz i k)) by (intros; unfold e; lia).
    rewrite !lsum_plus, lsum_scale, N1. change (lsum S120 (covz i) = 0) in N2. rewrite N2. lia. }
  rewrite E. eapply Z.le_trans; [apply lsum_abs|]. eapply Z.le_trans; [apply (lsum_le _ _ (fun k => Z.abs (covz k i) * errz))|].
  - intros k Hk. apply in_seq in Hk. rewrite Z.abs_mul, (covz_sym k i). specialize (G k ltac:(lia)). pose proof (Z.abs_nonneg (covz i k)). fold (e k) in G. nia.
  - rewrite lsum_scale_r. pose proof (width i Hi). unfold errz. lia.
Qed.
Lemma trace_Z : Z.abs (lsum S120 (fun k => prod k k) - 96 * unitz) <= 1000000000.
Proof.
  pose proof (proj1 (Z.leb_le _ _) trace_check) as T.
  assert (E : lsum S120 (fun k => prod k k) = trace).
  { unfold trace. apply lsum_ext. intros k Hk. apply in_seq in Hk. symmetry. apply prod_dot; lia. }
  rewrite E. exact T.
Qed.
Lemma end_Z : -164670 * unitz <= 10000 * lsum S120 (fun k => lsum S120 (fun l => endz l k * ent k l)) <= -164669 * unitz.
Proof.
  pose proof end_check as T. apply andb_true_iff in T. destruct T as (T1 & T2). apply Z.leb_le in T1. apply Z.leb_le in T2.
  assert (E : lsum S120 (fun k => lsum S120 (fun l => endz l k * ent k l)) = end_trace).
  { unfold end_trace. apply lsum_ext. intros k _. apply lsum_ext. intros l _. reflexivity. }
  rewrite E. exact (conj T1 T2).
Qed.
