From Verif Require Import BaseLemmas TallyLemmas MissingLemmas BitdistModel.
Open Scope N_scope.

(** How often the value i is drawn in trial t of [n] draws. *)
Definition occurrences_in (v : nat -> N) (n c t : nat) (i : N) : N :=
  countp (fun b => v (c + n * t + b)%nat =? i) (seq 0 n).
(** Number of the first [t] trials in which i is drawn k times. *)
Definition trials_with (v : nat -> N) (n c t : nat) (i k : N) : N :=
  countp (fun t => occurrences_in v n c t i =? k) (seq 0 t).

Section Values.
Variable v : nat -> N.
Variables value_max bs : nat.
Hypothesis bounded : forall k, v k < N.of_nat value_max.

Lemma draws_ok : forall n count c, length count = value_max -> tallies count [] ->
  exists count', iter_o n (bd_draw v) (count, c) = Ok (count', (c + n)%nat) /\ length count' = value_max /\
    tallies count' (map (fun b => Z.of_N (v (c + b)%nat)) (seq 0 n)).
Proof.
  intros n count c L T.
  destruct (iter_inv _ (bd_draw v) (fun t s => let '(count, c') := s in c' = (c + t)%nat /\ length count = value_max /\
     tallies count (map (fun b => Z.of_N (v (c + b)%nat)) (seq 0 t))) n (count, c)) as ([count' c'] & E & -> & L' & T').
  - split; [lia|]. auto.
  - intros t [cn c'] Ht (-> & Ln & Tn). unfold bd_draw.
    destruct (tallies_bump cn _ (Z.of_N (v (c + t)%nat)) Tn) as (cn' & F & LF & TF).
    { rewrite Ln. pose proof (bounded (c + t)%nat). lia. }
    rewrite F. cbn [bind]. eexists. split; [reflexivity|]. split; [lia|]. split; [lia|].
    rewrite seq_S, map_app. exact TF.
  - exists count'. auto.
Qed.

(** Row i of the histograms after a set of trials. *)
Definition row_ok (row : list Z) (tsamples : nat) (f : N -> N) : Prop :=
  length row = S bs /\ nth 0 row 0%Z = (Z.of_nat tsamples - Z.of_N (f 0%N))%Z /\
  forall k, (0 < k <= bs)%nat -> nth k row 0%Z = Z.of_N (f (N.of_nat k)).

Lemma scan_ok : forall count vt tsamples (f g : nat -> N -> N) (occ : nat -> N),
  length count = value_max -> length vt = value_max ->
  (forall i, (i < value_max)%nat -> nth i count 0 = occ i) -> (forall i, occ i <= N.of_nat bs) ->
  (forall i, (i < value_max)%nat -> row_ok (nth i vt []) tsamples (f i)) ->
  (* f i 0 counts the trials in which i was drawn *)
  (forall i, g i 0 = f i 0 + (if occ i =? 0 then 0 else 1)) ->
  (forall i k, 0 < k -> g i k = f i k + (if occ i =? k then 1 else 0)) ->
  exists count' vt' z, iter_o value_max bd_scan_step (0%Z, count, vt) = Ok (z, count', vt') /\
    length count' = value_max /\ length vt' = value_max /\ (forall i, (i < value_max)%nat -> nth i count' 0 = 0) /\
    (forall i, (i < value_max)%nat -> row_ok (nth i vt' []) tsamples (g i)).
Proof.
  intros count vt tsamples f g occ LC LV CO OB RO G0 GK.
  destruct (iter_inv _ bd_scan_step (fun j s => let '(i, count', vt') := s in i = Z.of_nat j /\ length count' = value_max /\ length vt' = value_max /\
     (forall i, (i < j)%nat -> (i < value_max)%nat -> nth i count' 0 = 0 /\ row_ok (nth i vt' []) tsamples (g i)) /\
     (forall i, (j <= i)%nat -> (i < value_max)%nat -> nth i count' 0 = occ i /\ row_ok (nth i vt' []) tsamples (f i))) value_max (0%Z, count, vt))
    as ([[z count'] vt'] & E & -> & L1 & L2 & D1 & _).
  - split; [reflexivity|]. split; [exact LC|]. split; [exact LV|]. split; [lia|]. auto.
  - intros j [[z cn] vn] Hj (-> & L1 & L2 & D1 & D2). unfold bd_scan_step.
    destruct (D2 j (le_n j) Hj) as [Cj (RL & R0 & RK)].
    rewrite (aget_ok cn _ 0) by lia. cbn [bind]. rewrite Nat2Z.id, Cj.
    assert (Ext : forall row, row_ok row tsamples (f j) -> occ j = 0 -> row_ok row tsamples (g j)).
    { intros row (Q1 & Q2 & Q3) Z0. split; [exact Q1|]. split.
      - rewrite G0, Z0. cbn [N.eqb]. rewrite N.add_0_r. exact Q2.
      - intros k Hk. rewrite GK by lia. rewrite Z0, (proj2 (N.eqb_neq 0 (N.of_nat k))) by lia. rewrite N.add_0_r. apply Q3. exact Hk. }
    destruct (N.eqb_spec (occ j) 0) as [Z0|Z0]; cbn [negb].
    + eexists. split; [reflexivity|]. split; [lia|]. split; [exact L1|]. split; [exact L2|]. split.
      * intros i Hi Hv. destruct (Nat.eq_dec i j) as [->|NE]; [|apply D1; lia]. split; [lia|]. apply Ext; [split; auto|exact Z0].
      * intros i Hi Hv. apply D2; lia.
    + pose proof (OB j) as OJ.
      rewrite aset_ok by lia. cbn [bind]. rewrite (aget_ok vn _ []) by lia. cbn [bind]. rewrite Nat2Z.id.
      rewrite (aget_ok (nth j vn []) _ 0%Z) by lia. cbn [bind].
      rewrite aset_ok by lia. cbn [bind]. rewrite (aget_ok _ 0 0%Z) by (rewrite ?set_nth_length; lia). cbn [bind].
      rewrite aset_ok by (rewrite ?set_nth_length; lia). cbn [bind]. rewrite aset_ok by lia. cbn [bind].
      eexists. split; [reflexivity|]. split; [lia|]. rewrite !set_nth_length. split; [exact L1|]. split; [exact L2|].
      rewrite Nat2Z.id. change (Z.to_nat 0) with 0%nat. replace (Z.to_nat (Z.of_N (occ j))) with (N.to_nat (occ j)) by lia. split.
      * intros i Hi Hv. destruct (Nat.eq_dec i j) as [->|NE].
        -- split; [apply nth_set_nth_eq; lia|]. rewrite nth_set_nth_eq by lia. split; [rewrite !set_nth_length; exact RL|]. split.
           ++ rewrite nth_set_nth_eq by (rewrite set_nth_length; lia). rewrite nth_set_nth_ne by lia. rewrite R0, G0.
              rewrite (proj2 (N.eqb_neq (occ j) 0)) by exact Z0. lia.
           ++ intros k Hk. rewrite nth_set_nth_ne by lia. rewrite GK by lia. destruct (N.eqb_spec (occ j) (N.of_nat k)) as [EK|EK].
              ** rewrite EK, Nat2N.id, nth_set_nth_eq by lia. rewrite RK by exact Hk. lia.
              ** rewrite nth_set_nth_ne by lia. rewrite RK by exact Hk. lia.
        -- rewrite !nth_set_nth_ne by lia. apply D1; lia.
      * intros i Hi Hv. rewrite !nth_set_nth_ne by lia. apply D2; lia.
  - exists count', vt', (Z.of_nat value_max). split; [exact E|]. split; [exact L1|]. split; [exact L2|].
    split; intros i Hi; apply D1; assumption.
Qed.

Lemma countp_zero : forall A (l : list A), countp (fun _ => false) l = 0.
Proof. induction l; cbn; auto. Qed.
Lemma trials_S : forall c t i k, trials_with v bs c (S t) i k = trials_with v bs c t i k + (if occurrences_in v bs c t i =? k then 1 else 0).
Proof. intros. unfold trials_with. rewrite seq_S, countp_app. cbn [countp plus]. lia. Qed.

(** Trials in which i was drawn at all (k = 0) or k times. *)
Definition F (c t : nat) (i : nat) (k : N) : N :=
  if k =? 0 then N.of_nat t - trials_with v bs c t (N.of_nat i) 0 else trials_with v bs c t (N.of_nat i) k.
Lemma trials_le : forall c t i k, trials_with v bs c t i k <= N.of_nat t.
Proof. intros. unfold trials_with. etransitivity; [apply countp_le|]. rewrite seq_length. lia. Qed.

Lemma bitdist_loop : forall tsamples n c, (n <= tsamples)%nat ->
  exists count vt, iter_o n (bd_trial v value_max bs) (repeat 0 value_max, repeat (Z.of_nat tsamples :: repeat 0%Z bs) value_max, c)
    = Ok (count, vt, (c + bs * n)%nat) /\ length vt = value_max /\
    forall i, (i < value_max)%nat -> row_ok (nth i vt []) tsamples (F c n i).
Proof.
  intros tsamples n c Hn.
  destruct (iter_inv _ (bd_trial v value_max bs) (fun t s => let '(count, vt, c') := s in c' = (c + bs * t)%nat /\
     length count = value_max /\ length vt = value_max /\ (forall i, (i < value_max)%nat -> nth i count 0 = 0) /\
     (forall i, (i < value_max)%nat -> row_ok (nth i vt []) tsamples (F c t i))) n
     (repeat 0 value_max, repeat (Z.of_nat tsamples :: repeat 0%Z bs) value_max, c)) as ([[count vt] c'] & E & -> & L1 & L2 & D1 & D2).
  - split; [lia|]. split; [apply repeat_length|]. split; [apply repeat_length|]. split; [intros; apply nth_repeat|].
    intros i Hi. assert (R : nth i (repeat (Z.of_nat tsamples :: repeat 0%Z bs) value_max) [] = Z.of_nat tsamples :: repeat 0%Z bs).
    { rewrite (nth_indep _ [] (Z.of_nat tsamples :: repeat 0%Z bs)) by (rewrite repeat_length; exact Hi). apply nth_repeat. }
    rewrite R. split; [cbn [length]; rewrite repeat_length; reflexivity|]. split.
    + cbn [nth]. unfold F. cbn. lia.
    + intros k Hk. destruct k as [|k]; [lia|]. cbn [nth]. rewrite nth_repeat. reflexivity.
  - intros t [[count vt] c'] Ht (-> & L1 & L2 & D1 & D2). unfold bd_trial.
    destruct (draws_ok bs count (c + bs * t)%nat L1) as (cn & E & LC & TC).
    { split; [intros ? []|]. intros k Hk. cbn [countp]. apply D1. lia. }
    rewrite E. cbn [bind].
    destruct (scan_ok cn vt tsamples (F c t) (F c (S t)) (fun i => occurrences_in v bs c t (N.of_nat i)) LC L2) as (cn' & vt' & z & E2 & LC' & LV' & Z' & R').
    + intros i Hi. destruct TC as [_ TC]. rewrite TC by lia. rewrite countp_map. unfold occurrences_in. apply countp_ext.
      intros b _. destruct (N.eqb_spec (v (c + bs * t + b)%nat) (N.of_nat i)), (Z.eqb_spec (Z.of_N (v (c + bs * t + b)%nat)) (Z.of_nat i)); try reflexivity; exfalso; lia.
    + intro i. unfold occurrences_in. etransitivity; [apply countp_le|]. rewrite seq_length. lia.
    + exact D2.
    + intro i. unfold F. cbn [N.eqb]. rewrite trials_S. pose proof (trials_le c t (N.of_nat i) 0). destruct (_ =? 0); lia.
    + intros i k Hk. unfold F. rewrite (proj2 (N.eqb_neq k 0)) by lia. apply trials_S.
    + rewrite E2. cbn [bind]. eexists. split; [reflexivity|]. split; [lia|]. auto.
  - exists count, vt. auto.
Qed.
End Values.
