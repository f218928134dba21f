(** The statistic of the test and the Kolmogorov-Smirnov distance. *)
From Coq Require Import ZArith Reals Lra Lia List Permutation Sorted Bool.
From Flocq Require Import Core.
From Verif Require Import KsSpec.
Import ListNotations.
Open Scope R_scope.

Definition cnt (l : list R) (x : R) : nat := length (filter (fun p => if Rle_dec p x then true else false) l).
Lemma cnt_perm l l' x : Permutation l l' -> cnt l x = cnt l' x.
Proof.
  unfold cnt. induction 1 as [|a l l' P IH|a b l|]; cbn [filter]; auto.
  - destruct (Rle_dec a x); cbn [length]; auto.
  - destruct (Rle_dec a x), (Rle_dec b x); reflexivity.
  - congruence.
Qed.
Lemma cnt_le l x : (cnt l x <= length l)%nat.
Proof. unfold cnt. induction l as [|a l IH]; cbn; [lia|]. destruct (Rle_dec a x); cbn; lia. Qed.
Lemma cnt_nth s x : StronglySorted Rle s -> forall i, (i < length s)%nat -> (nth i s 0 <= x <-> (i < cnt s x)%nat).
Proof.
  unfold cnt. induction 1 as [|a s S IH F]; intros i L; cbn [length] in L; [lia|]. cbn [filter].
  destruct (Rle_dec a x) as [H|H].
  - destruct i as [|i]; cbn [nth length]; [split; [lia|auto]|]. rewrite IH by lia. lia.
  - apply Rnot_le_lt in H. assert (Z : length (filter (fun p => if Rle_dec p x then true else false) s) = 0%nat).
    { clear - F H. induction s as [|b s IH]; [reflexivity|]. inversion F; subst. cbn [filter].
      destruct (Rle_dec b x); [lra|]. apply IH; auto. }
    rewrite Z. split; [|intro; exfalso; lia]. intro G. exfalso. destruct i as [|i]; cbn [nth] in G; [exact (Rlt_not_le _ _ H G)|].
    rewrite Forall_forall in F. assert (I : In (nth i s 0) s) by (apply nth_In; lia). specialize (F _ I). lra.
Qed.
Lemma largest_ge : forall s i n m, m <= largest_from i n s m.
Proof.
  induction s as [|p s IH]; intros i n m; cbn [largest_from]; [lra|].
  eapply Rle_trans; [|apply IH]. apply Rmax_l.
Qed.
Lemma largest_each : forall s i n m k, (k < length s)%nat ->
  Rabs (nth k s 0 - (i + INR k) / (n + 1)) <= largest_from i n s m.
Proof.
  induction s as [|p s IH]; intros i n m k L; cbn [length] in L; [lia|]. cbn [largest_from]. destruct k as [|k].
  - cbn [nth INR]. rewrite Rplus_0_r. eapply Rle_trans; [|apply largest_ge]. apply Rmax_r.
  - cbn [nth]. rewrite S_INR. replace (i + (INR k + 1)) with (i + 1 + INR k) by ring. apply IH. lia.
Qed.
Lemma largest_lub : forall s i n m v, m <= v -> (forall k, (k < length s)%nat -> Rabs (nth k s 0 - (i + INR k) / (n + 1)) <= v) ->
  largest_from i n s m <= v.
Proof.
  induction s as [|p s IH]; intros i n m v M H; cbn [largest_from]; [exact M|]. apply IH.
  - apply Rmax_lub; [exact M|]. specialize (H 0%nat). cbn [nth INR length] in H. rewrite Rplus_0_r in H. apply H. lia.
  - intros k L. specialize (H (S k)). cbn [nth length] in H. rewrite S_INR in H.
    replace (i + 1 + INR k) with (i + (INR k + 1)) by ring. apply H. lia.
Qed.

Lemma frac a b n : 0 < n -> a <= b -> a / n <= b / n.
Proof. intros N L. apply Rmult_le_compat_r; [|exact L]. apply Rlt_le, Rinv_0_lt_compat, N. Qed.
Lemma pos_between k n : 0 < n -> 0 <= k -> k + 1 <= n ->
  k / n <= (k + 1) / (n + 1) <= k / n + 1 / (n + 1) /\ (k + 1) / n - 1 / (n + 1) <= (k + 1) / (n + 1) <= (k + 1) / n.
Proof.
  intros N K L.
  assert (E1 : (k + 1) / (n + 1) - k / n = (n - k) / (n * (n + 1))) by (field; lra).
  assert (E2 : k / n + 1 / (n + 1) - (k + 1) / (n + 1) = k / (n * (n + 1))) by (field; lra).
  assert (E3 : (k + 1) / (n + 1) - ((k + 1) / n - 1 / (n + 1)) = (n - k - 1) / (n * (n + 1))) by (field; lra).
  assert (E4 : (k + 1) / n - (k + 1) / (n + 1) = (k + 1) / (n * (n + 1))) by (field; lra).
  assert (P : forall a, 0 <= a -> 0 <= a / (n * (n + 1))).
  { intros a A. apply Rmult_le_pos; [exact A|]. apply Rlt_le, Rinv_0_lt_compat. nra. }
  pose proof (P (n - k) ltac:(lra)). pose proof (P k ltac:(lra)). pose proof (P (n - k - 1) ltac:(lra)). pose proof (P (k + 1) ltac:(lra)).
  lra.
Qed.

Section Distance.
Variables (l s : list R) (D : R).
Hypothesis P : Permutation l s.
Hypothesis S : StronglySorted Rle s.
Hypothesis B : Forall (fun p => 0 <= p <= 1) s.
Hypothesis N : l <> [].
Hypothesis HD : ks_distance l D.
Notation n := (INR (length l)).
Lemma n_pos : 0 < n.
Proof. destruct l as [|a l0]; [now destruct N|]. cbn [length]. rewrite S_INR. pose proof (pos_INR (length l0)). lra. Qed.
Lemma at_val x : at_most l x = INR (cnt s x) / n.
Proof. unfold at_most. change (length (filter _ l)) with (cnt l x). now rewrite (cnt_perm l s x P). Qed.
Lemma D_ge x : 0 <= x <= 1 -> Rabs (INR (cnt s x) / n - x) <= D.
Proof. intro H. apply HD. exists x. now rewrite at_val. Qed.
Lemma nth_range k : (k < length s)%nat -> 0 <= nth k s 0 <= 1.
Proof. intro L. rewrite Forall_forall in B. apply B. now apply nth_In. Qed.
Lemma len : length s = length l. Proof. symmetry. now apply Permutation_length. Qed.
Lemma up k : (k < length s)%nat -> (INR k + 1) / n - nth k s 0 <= D.
Proof.
  intro L. pose proof (D_ge (nth k s 0) (nth_range k L)) as H. apply Rabs_le_inv in H.
  assert (C : (k < cnt s (nth k s 0%R))%nat) by (apply cnt_nth; auto; lra).
  pose proof (frac (INR k + 1) (INR (cnt s (nth k s 0))) n n_pos) as F. rewrite <- S_INR in F |- *.
  specialize (F ltac:(apply le_INR; lia)). lra.
Qed.
Lemma down k : (k < length s)%nat -> nth k s 0 - INR k / n <= D.
Proof.
  intro L. apply Rnot_lt_le. intro H. pose proof (nth_range k L) as R.
  assert (D0 : 0 <= D) by (eapply Rle_trans; [apply Rabs_pos|apply (D_ge 0); lra]).
  assert (K0 : 0 <= INR k / n). { apply Rmult_le_pos; [apply pos_INR|]. apply Rlt_le, Rinv_0_lt_compat, n_pos. }
  set (x := (nth k s 0 + INR k / n + D) / 2). assert (X : 0 <= x <= 1) by (unfold x; lra).
  pose proof (D_ge x X) as G. apply Rabs_le_inv in G.
  assert (C : (cnt s x <= k)%nat). { apply Nat.nlt_ge. intro C. apply cnt_nth in C; auto. unfold x in C. lra. }
  pose proof (frac (INR (cnt s x)) (INR k) n n_pos ltac:(apply le_INR; lia)) as F. unfold x in *. lra.
Qed.
Lemma k_le k : (k < length s)%nat -> INR k + 1 <= n.
Proof. intro L. rewrite <- S_INR. apply le_INR. rewrite len in L. lia. Qed.
Lemma offset_le : largest_from 1 n s 0 <= D.
Proof.
  apply largest_lub; [eapply Rle_trans; [apply Rabs_pos|apply (D_ge 0); lra]|].
  intros k L. rewrite Rplus_comm. destruct (pos_between (INR k) n n_pos (pos_INR k) (k_le k L)) as (A1 & A2).
  pose proof (up k L). pose proof (down k L). apply Rabs_le. lra.
Qed.
Lemma offset_ge : D <= largest_from 1 n s 0 + 1 / (n + 1).
Proof.
  apply HD. intros v (x & X & ->). rewrite at_val. set (m := largest_from 1 n s 0).
  assert (M : forall k, (k < length s)%nat -> (INR k + 1) / n - 1 / (n + 1) - m <= nth k s 0 <= INR k / n + 1 / (n + 1) + m).
  { intros k L. pose proof (largest_each s 1 n 0 k L) as H. fold m in H. rewrite (Rplus_comm 1 (INR k)) in H. apply Rabs_le_inv in H.
    destruct (pos_between (INR k) n n_pos (pos_INR k) (k_le k L)). lra. }
  assert (M0 : 0 <= m) by apply largest_ge. pose proof n_pos as NP.
  assert (I : 0 < 1 / (n + 1)) by (apply Rdiv_lt_0_compat; lra).
  pose proof (cnt_le s x) as CL. rewrite len in CL. set (c := cnt s x) in *. apply Rabs_le. split.
  - destruct (Nat.eq_dec c (length l)) as [E|E].
    + rewrite E. replace (n / n) with 1 by (field; lra). lra.
    + assert (L : (c < length s)%nat) by (rewrite len; lia). specialize (M c L).
      assert (x < nth c s 0). { apply Rnot_le_lt. intro G. apply cnt_nth in G; auto. fold c in G. lia. }
      lra.
  - destruct c as [|k] eqn:E; [cbn [INR]; replace (0 / n) with 0 by (field; lra); lra|].
    assert (L : (k < length s)%nat) by (rewrite len; lia). specialize (M k L). rewrite S_INR.
    assert (nth k s 0 <= x) by (apply cnt_nth; auto; fold c; lia). lra.
Qed.
End Distance.
