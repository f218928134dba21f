(** Theorems C33, C66: the birthday-spacings tests. *)
From Verif Require Import BaseLemmas TallyLemmas BirthdaysModel BirthdaysSpec BirthdaysLemmas.
Open Scope N_scope.

(** The spacings of one sample in increasing order: [days] are the numbers drawn. *)
Definition sorted_spacings (srt : list N -> list N) (days : list N) : list N :=
  srt (spacings_from 0 (srt days)).

Lemma sample_intervals : forall srt g nms c, sorts srt -> (forall i, g i < 2 ^ 32) ->
  birthdays_sample srt g nms c = count_repeats (sorted_spacings srt (draws g nms c)).
Proof.
  intros srt g nms c S B. unfold birthdays_sample, sorted_spacings.
  rewrite intervals_spacings; [reflexivity|apply S|].
  intros x I. apply (Permutation_in (l' := draws g nms c)) in I; [|apply Permutation_sym, S].
  clear - B I. revert c I. induction nms; intros c I; [destruct I|]. destruct I as [<-|I]; [apply B|eauto].
Qed.

(** ** C33: the statistic is the number of spacings that occur more than once *)

(** What the program counts, for every sample: the sorted spacings are groups
    of equal values, and of each group the loop sees all elements, or all but
    the first when the group before it was counted. *)
Theorem C33_exact : forall srt g nms c, sorts srt -> (forall i, g i < 2 ^ 32) ->
  exists groups, is_grouping groups /\ expand groups = sorted_spacings srt (draws g nms c) /\
    birthdays_sample srt g nms c =
      match loop_counts false groups with Some k => Ok k | None => UB "array index" end.
Proof.
  intros srt g nms c S B. rewrite (sample_intervals srt g nms c S B).
  destruct (grouping_ok (sorted_spacings srt (draws g nms c))) as [G E]; [apply S|].
  exists (grouping (sorted_spacings srt (draws g nms c))). split; [exact G|]. split; [exact E|].
  rewrite <- E at 1. apply count_repeats_exact. exact G.
Qed.

(** Missing for the full claim: samples where two neighbouring spacing values
    are both repeated, or where the largest spacing is. *)
Theorem C33_isolated_partial : forall srt g nms c, sorts srt -> (forall i, g i < 2 ^ 32) ->
  isolated (sorted_spacings srt (draws g nms c)) ->
  birthdays_sample srt g nms c = Ok (repeated_values (sorted_spacings srt (draws g nms c))).
Proof.
  intros srt g nms c S B I. rewrite (sample_intervals srt g nms c S B). apply count_repeats_isolated; [apply S|exact I].
Qed.

(** The birthdays whose spacings are given, starting after [day]. *)
Fixpoint days_of (day : N) (spacings : list N) : list N :=
  match spacings with [] => [] | s :: r => (day + s) :: days_of (day + s) r end.
Definition stream_of (l : list N) (i : nat) : N := nth i l 0.
Fixpoint count_up (n : nat) (x : N) : list N := match n with O => [] | S m => x :: count_up m (x + 1) end.

(** 512 24-bit birthdays with spacings 1, 1, 2, 2, 3, 4, 5, ...: two values occur
    more than once, one is counted. *)
Definition under : list N := days_of 0 ([1; 1; 2; 2] ++ count_up 508 3).
(** 512 24-bit birthdays whose largest spacing occurs twice. *)
Definition over : list N := days_of 0 (count_up 511 1 ++ [511]).

Lemma sorted_case : forall srt days n, sorts srt -> inc days = true -> inc (spacings_from 0 days) = true ->
  forallb (fun x => x <? 2 ^ 32) days = true -> length days = n ->
  birthdays_sample srt (stream_of days) n 0 = count_repeats (spacings_from 0 days) /\
  draws (stream_of days) n 0 = days.
Proof.
  intros srt days n S I1 I2 B L.
  assert (D : draws (stream_of days) n 0 = days).
  { assert (G : forall k c, (c + k = length days)%nat -> draws (stream_of days) k c = skipn c days).
    { induction k; intros c H; cbn [draws]; [symmetry; apply skipn_all2; lia|].
      rewrite IHk by lia. unfold stream_of. clear - H. revert c H. induction days; intros c H; cbn in H; [lia|].
      destruct c; [reflexivity|]. apply IHdays. lia. }
    apply (G n 0%nat). lia. }
  split; [|exact D].
  rewrite sample_intervals; [|exact S|].
  - unfold sorted_spacings. rewrite D, (sort_sorted srt S days) by (apply inc_ok; exact I1).
    rewrite (sort_sorted srt S) by (apply inc_ok; exact I2). reflexivity.
  - intro i. unfold stream_of. destruct (Nat.ltb_spec i (length days)).
    + rewrite forallb_forall in B. apply N.ltb_lt, B, nth_In. assumption.
    + rewrite nth_overflow by lia. reflexivity.
Qed.

Theorem C33_undercount_refuted : exists days : list N, length days = 512%nat /\ Forall (fun x => x < 2 ^ 24) days /\
  forall srt, sorts srt ->
    birthdays_sample srt (stream_of days) 512 0 = Ok 1 /\
    repeated_values (sorted_spacings srt (draws (stream_of days) 512 0)) = 2.
Proof.
  exists under. split; [vm_compute; reflexivity|]. split.
  - apply Forall_forall. intros x I. apply N.ltb_lt. revert x I. apply forallb_forall. vm_compute. reflexivity.
  - intros srt S. destruct (sorted_case srt under 512 S ltac:(vm_compute; reflexivity) ltac:(vm_compute; reflexivity) ltac:(vm_compute; reflexivity) ltac:(vm_compute; reflexivity)) as [E D].
    split.
    + rewrite E. vm_compute. reflexivity.
    + rewrite D. unfold sorted_spacings. rewrite (sort_sorted srt S under) by (apply inc_ok; vm_compute; reflexivity).
      rewrite (sort_sorted srt S) by (apply inc_ok; vm_compute; reflexivity). vm_compute. reflexivity.
Qed.
Theorem C33_overrun_refuted : exists days : list N, length days = 512%nat /\ Forall (fun x => x < 2 ^ 24) days /\
  forall srt, sorts srt -> birthdays_sample srt (stream_of days) 512 0 = UB "array index".
Proof.
  exists over. split; [vm_compute; reflexivity|]. split.
  - apply Forall_forall. intros x I. apply N.ltb_lt. revert x I. apply forallb_forall. vm_compute. reflexivity.
  - intros srt S. destruct (sorted_case srt over 512 S ltac:(vm_compute; reflexivity) ltac:(vm_compute; reflexivity) ltac:(vm_compute; reflexivity) ltac:(vm_compute; reflexivity)) as [E D].
    rewrite E. vm_compute. reflexivity.
Qed.
Example C33_ex : (* spacings 3 3 5 7 7 7 9: the hypothesis of the partial theorem holds *)
  isolated [3; 3; 5; 7; 7; 7; 9] /\ repeated_values [3; 3; 5; 7; 7; 7; 9] = 2 /\
  count_repeats [3; 3; 5; 7; 7; 7; 9] = Ok 2.
Proof.
  split; [|split; vm_compute; reflexivity].
  assert (R : forall v, occurrences v [3; 3; 5; 7; 7; 7; 9] >= 2 -> v = 3 \/ v = 7).
  { intros v. unfold occurrences. cbn [countp]. destruct (N.eqb_spec v 3); destruct (N.eqb_spec v 7); destruct (N.eqb_spec v 5);
      destruct (N.eqb_spec v 9); intro; subst; try lia; auto. }
  split.
  - intros v w V W L. exists 5. apply R in V. apply R in W. cbn [In]. split; [tauto|]. lia.
  - intros v V. exists 9. apply R in V. cbn [In]. split; [tauto|]. lia.
Qed.

(** ** C66: the histogram handed to the chi-square test *)

(** If every sample can be counted, cell k of the histogram is the number of
    samples with k repeats; samples with kmax or more repeats are dropped. *)
Theorem C66_histogram : forall srt g nms kmax n c ks,
  length ks = n ->
  (forall t, (t < n)%nat -> birthdays_sample srt g nms (c + nms * t) = Ok (nth t ks 0)) ->
  exists js, birthdays srt g nms kmax n c = Ok (js, (c + nms * n)%nat) /\ length js = kmax /\
    forall k, (k < kmax)%nat -> nth k js 0 = countp (N.eqb (N.of_nat k)) ks.
Proof.
  intros srt g nms kmax n c ks L H. subst n. unfold birthdays.
  assert (G : forall ks c js done, length js = kmax ->
     (forall k, (k < kmax)%nat -> nth k js 0 = countp (N.eqb (N.of_nat k)) done) ->
     (forall t, (t < length ks)%nat -> birthdays_sample srt g nms (c + nms * t) = Ok (nth t ks 0)) ->
     exists js', iter_o (length ks) (birthdays_step srt g nms) (js, c) = Ok (js', (c + nms * length ks)%nat) /\
       length js' = kmax /\ forall k, (k < kmax)%nat -> nth k js' 0 = countp (N.eqb (N.of_nat k)) (done ++ ks)).
  { clear. induction ks as [|k0 ks IH]; intros c js done L C H; cbn [length iter_o].
    - exists js. rewrite Nat.mul_0_r, Nat.add_0_r, app_nil_r. auto.
    - unfold birthdays_step at 1. pose proof (H 0%nat ltac:(cbn; lia)) as H0. rewrite Nat.mul_0_r, Nat.add_0_r in H0.
      rewrite H0. cbn [bind nth].
      assert (X : exists js1, (if k0 <? N.of_nat (length js) then bump js (Z.of_N k0) else Ok js) = Ok js1 /\
        length js1 = kmax /\ forall k, (k < kmax)%nat -> nth k js1 0 = countp (N.eqb (N.of_nat k)) (done ++ [k0])).
      { destruct (N.ltb_spec k0 (N.of_nat (length js))) as [T|T].
        - rewrite bump_ok by lia. eexists. split; [reflexivity|]. rewrite set_nth_length. split; [exact L|].
          intros k Hk. rewrite countp_app. cbn [countp]. replace (Z.to_nat (Z.of_N k0)) with (N.to_nat k0) by lia.
          destruct (N.eqb_spec (N.of_nat k) k0) as [E|E].
          + subst k0. rewrite Nat2N.id, nth_set_nth_eq by lia. rewrite C by exact Hk. lia.
          + rewrite nth_set_nth_ne by lia. rewrite C by exact Hk. lia.
        - exists js. split; [reflexivity|]. split; [exact L|]. intros k Hk. rewrite countp_app. cbn [countp].
          rewrite (proj2 (N.eqb_neq (N.of_nat k) k0)) by lia. rewrite C by exact Hk. lia. }
      destruct X as (js1 & E & L1 & C1). rewrite E. cbn [bind].
      destruct (IH (c + nms)%nat js1 (done ++ [k0]) L1 C1) as (js2 & E2 & L2 & C2).
      { intros t Ht. specialize (H (S t) ltac:(cbn; lia)). cbn [nth] in H. rewrite <- H. f_equal. nia. }
      exists js2. rewrite E2. split; [f_equal; f_equal; nia|]. split; [exact L2|]. intros k Hk. rewrite C2 by exact Hk.
      rewrite <- app_assoc. reflexivity. }
  destruct (G ks c (repeat 0 kmax) [] (repeat_length _ _)) as (js & E & L & C).
  - intros k _. rewrite nth_repeat. reflexivity.
  - exact H.
  - exists js. auto.
Qed.
Example C66_ex : exists ks, length ks = 3%nat /\
  (forall t, (t < 3)%nat -> birthdays_sample (fun l => l) (stream_of [1; 2; 4; 7; 1; 2; 3; 7; 1; 3; 6; 10]) 4 (0 + 4 * t) = Ok (nth t ks 0)) /\
  birthdays (fun l => l) (stream_of [1; 2; 4; 7; 1; 2; 3; 7; 1; 3; 6; 10]) 4 3 3 0 = Ok ([1; 2; 0], 12%nat).
Proof.
  exists [1; 1; 0]. split; [reflexivity|]. split; [|vm_compute; reflexivity].
  intros t H. destruct t as [|[|[|t]]]; try lia; vm_compute; reflexivity.
Qed.

Print Assumptions C33_exact.
Print Assumptions C33_isolated_partial.
Print Assumptions C33_undercount_refuted.
Print Assumptions C33_overrun_refuted.
Print Assumptions C66_histogram.
