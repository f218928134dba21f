(** The runs counted by the program as a sum over the steps of the cycle. *)
From Coq Require Import Lia Lra Bool.
From Verif Require Import BaseLemmas TallyLemmas.
From Verif Require Export RunsArcs RunsLawSpec.
Open Scope nat_scope.

(** the number of rises that end just before step t *)
Fixpoint trail (e : nat -> bool) (t : nat) : nat := match t with O => O | S t => if e t then S (trail e t) else O end.
(** at step t a run of length i+1 ends *)
Definition rhit (e : nat -> bool) (i t : nat) : bool := negb (e t) && (Nat.min (trail e t) 5 =? i).

Fixpoint run_bits (es : list bool) (s : rstate) : outcome rstate :=
  match es with [] => Ok s | e :: es => do s <- run_step e s ;; run_bits es s end.

Definition counts_ok (e : nat -> bool) (a : nat) (t : list N) (c : N) : Prop :=
  length t = 6 /\ c = N.of_nat (S (Nat.min (trail e a) 5)) /\
  forall i, i < 6 -> IZR (Z.of_N (nth i t 0%N)) = rsum a (fun t => b2r (rhit e i t)).
Definition rinv (e : nat -> bool) (a : nat) (s : rstate) : Prop :=
  counts_ok e a (r_up s) (r_ucount s) /\ counts_ok (fun t => negb (e t)) a (r_down s) (r_dcount s).

Lemma counts_longer e a t c : e a = true -> counts_ok e a t c -> counts_ok e (S a) t (if (6 <? c + 1)%N then 6%N else (c + 1)%N).
Proof.
  intros E (L & C & H). split; [exact L|]. split.
  - cbn [trail]. rewrite E, C. destruct (N.ltb_spec 6 (N.of_nat (S (Nat.min (trail e a) 5)) + 1)); lia.
  - intros i Hi. rewrite (H i Hi). cbn [rsum]. replace (rhit e i a) with false by (unfold rhit; now rewrite E). cbn [b2r]. lra.
Qed.
Lemma counts_ends e a t c : e a = false -> counts_ok e a t c ->
  exists t', bump t (Z.of_N c - 1) = Ok t' /\ counts_ok e (S a) t' 1.
Proof.
  intros E (L & C & H). set (k := Nat.min (trail e a) 5) in *. assert (Hk : k < 6) by (unfold k; lia).
  rewrite bump_ok by lia. eexists. split; [reflexivity|]. replace (Z.to_nat (Z.of_N c - 1)) with k by lia.
  split; [now rewrite set_nth_length|]. split; [cbn [trail]; now rewrite E|].
  intros i Hi. cbn [rsum]. rewrite <- (H i Hi). replace (rhit e i a) with (k =? i) by (unfold rhit; now rewrite E).
  destruct (Nat.eqb_spec k i) as [->|Ne].
  - rewrite nth_set_nth_eq by lia. rewrite N2Z.inj_add, plus_IZR. reflexivity.
  - rewrite nth_set_nth_ne by exact Ne. cbn [b2r]. lra.
Qed.
Lemma run_step_inv e a s : rinv e a s -> exists s', run_step (e a) s = Ok s' /\ rinv e (S a) s'.
Proof.
  intros (U & D). unfold run_step. destruct (e a) eqn:E.
  - destruct (counts_ends (fun t => negb (e t)) a _ _ ltac:(cbv beta; now rewrite E) D) as (t & -> & T). cbn [bind]. eexists. split; [reflexivity|].
    split; cbn [r_up r_down r_ucount r_dcount]; [now apply counts_longer|exact T].
  - destruct (counts_ends e a _ _ E U) as (t & -> & T). cbn [bind]. eexists. split; [reflexivity|].
    split; cbn [r_up r_down r_ucount r_dcount]; [exact T|apply counts_longer; [cbv beta; now rewrite E|exact D]].
Qed.
Lemma run_bits_inv e : forall m a s, rinv e a s -> exists s', run_bits (map e (seq a m)) s = Ok s' /\ rinv e (a + m) s'.
Proof.
  induction m as [|m IH]; intros a s I.
  - exists s. rewrite Nat.add_0_r. split; [reflexivity|exact I].
  - cbn [seq map run_bits]. destruct (run_step_inv e a s I) as (s' & -> & I'). cbn [bind].
    destruct (IH (S a) s' I') as (s2 & E & I2). exists s2. split; [exact E|]. now rewrite Nat.add_succ_r.
Qed.
Lemma rinv_start e : rinv e 0 {| r_up := repeat 0%N 6; r_down := repeat 0%N 6; r_ucount := 1; r_dcount := 1 |}.
Proof.
  assert (G : forall e, counts_ok e 0 (repeat 0%N 6) 1).
  { intro f. split; [reflexivity|]. split; [reflexivity|]. intros i Hi. rewrite nth_repeat. reflexivity. }
  split; apply G.
Qed.

Lemma run_loop_bits (g : nat -> N) e : forall m a next s, (forall t, a <= t < a + m -> (g t <? g (S t))%N = e t) ->
  run_loop (map g (seq (S a) m)) (g a) next s = do s <- run_bits (map e (seq a m)) s ;; Ok (s, if Nat.eqb m 0 then next else g (a + m)).
Proof.
  induction m as [|m IH]; intros a next s H; [reflexivity|]. cbn [seq map run_loop run_bits]. rewrite (H a) by lia.
  destruct (run_step (e a) s) as [s'| | |]; cbn [bind]; try reflexivity.
  rewrite IH by (intros; apply H; lia). destruct (run_bits _ s') as [s2| | |]; cbn [bind]; try reflexivity.
  replace (if m =? 0 then g (S a) else g (S a + m)) with (if S m =? 0 then next else g (a + S m)); [reflexivity|].
  cbn [Nat.eqb]. destruct (m =? 0) eqn:Em; f_equal; [apply Nat.eqb_eq in Em|]; lia.
Qed.
Lemma run_bits_app es fs s : run_bits (es ++ fs) s = do s <- run_bits es s ;; run_bits fs s.
Proof. revert s. induction es as [|e es IH]; intro s; [reflexivity|]. cbn [app run_bits]. destruct (run_step e s); cbn [bind]; auto. Qed.

(** the comparisons made by the program *)
Definition steps (n : nat) (pi : list nat) (t : nat) : bool := if t =? n - 1 then negb (rises n pi t) else rises n pi t.

Lemma count_runs_sum n pi : 2 <= n -> ordering n pi -> exists u d, count_runs (results pi 0) (map (results pi) (seq 1 (n - 1))) = Ok (u, d) /\
  length u = 6 /\ length d = 6 /\
  (forall i, i < 6 -> IZR (Z.of_N (nth i u 0%N)) = rsum n (fun t => b2r (rhit (steps n pi) i t))) /\
  (forall i, i < 6 -> IZR (Z.of_N (nth i d 0%N)) = rsum n (fun t => b2r (rhit (fun t => negb (steps n pi t)) i t))).
Proof.
  intros Hn O. set (e := steps n pi). unfold count_runs.
  rewrite (run_loop_bits (results pi) e (n - 1) 0).
  2:{ intros t Ht. unfold e, steps. replace (t =? n - 1) with false by (symmetry; apply Nat.eqb_neq; lia). unfold rises, before, results.
      rewrite !Nat.mod_small by lia. apply eq_true_iff_eq. rewrite N.ltb_lt, Nat.ltb_lt. lia. }
  destruct (run_bits_inv e n 0 _ (rinv_start e)) as (s & E & (U & D)).
  replace n with (n - 1 + 1) in E at 1 by lia. rewrite seq_app, map_app, run_bits_app in E. cbn [seq map] in E. rewrite Nat.add_0_l in *.
  destruct (run_bits (map e (seq 0 (n - 1))) _) as [s1| | |]; cbn [bind run_bits] in *; try discriminate.
  replace (n - 1 =? 0) with false by (symmetry; apply Nat.eqb_neq; lia).
  replace ((results pi 0 <? results pi (n - 1))%N) with (e (n - 1)).
  2:{ unfold e, steps. rewrite Nat.eqb_refl. unfold rises, before, results. replace (S (n - 1)) with n by lia. rewrite Nat.mod_same, Nat.mod_small by lia.
      assert (place pi 0 <> place pi (n - 1)). { intro K. apply place_inj in K; [lia|apply (ordering_in n); [exact O|lia]..]. }
      apply eq_true_iff_eq. rewrite negb_true_iff, Nat.ltb_ge, N.ltb_lt. lia. }
  destruct (run_step (e (n - 1)) s1) as [s2| | |]; cbn [bind] in *; try discriminate. injection E as ->.
  exists (r_up s), (r_down s). destruct U as (LU & _ & U), D as (LD & _ & D). auto 6.
Qed.

(** ** the steps around the end of a run *)
Definition T_ : option bool := Some true.
Definition F_ : option bool := Some false.
Definition O_ : option bool := None.
Definition gpat (i : nat) : pattern :=
  match i with
  | 0 => [O_; O_; O_; O_; F_; F_]
  | 1 => [O_; O_; O_; F_; T_; F_]
  | 2 => [O_; O_; F_; T_; T_; F_]
  | 3 => [O_; F_; T_; T_; T_; F_]
  | 4 => [F_; T_; T_; T_; T_; F_]
  | _ => [T_; T_; T_; T_; T_; F_]
  end.
(** the last step is compared the wrong way round *)
Definition epat (i : nat) : pattern := removelast (gpat i) ++ [T_].
(** the first runs begin without a fall *)
Definition spat (t i : nat) : option pattern :=
  if i <? t then Some (gpat i) else if i =? t then Some (repeat O_ (5 - t) ++ repeat T_ t ++ [F_]) else None.
Definition rpat (u i : nat) : option pattern :=
  match u with 0 => Some (epat i) | S t => if t <? 5 then spat t i else Some (gpat i) end.
Definition whit (e : nat -> bool) (s : nat) (o : option pattern) : bool := match o with Some l => along e s l | None => false end.

Lemma trail_ext e f t : (forall k, k < t -> e k = f k) -> trail e t = trail f t.
Proof. induction t as [|t IH]; intro H; [reflexivity|]. cbn [trail]. rewrite (H t) by lia. now rewrite IH by (intros; apply H; lia). Qed.
Lemma rhit_ext e f i t : (forall k, k <= t -> e k = f k) -> rhit e i t = rhit f i t.
Proof. intro H. unfold rhit. rewrite (H t) by lia. now rewrite (trail_ext e f t) by (intros; apply H; lia). Qed.
Lemma rhit_gpat e i k : i < 6 -> rhit e i (5 + k) = along e k (gpat i).
Proof.
  intro H. unfold rhit. replace (5 + k) with (S (S (S (S (S k))))) by lia. cbn [trail].
  assert (M : Nat.min (S (S (S (S (S (trail e k)))))) 5 = 5) by lia.
  destruct i as [|[|[|[|[|[|i]]]]]]; [..|exfalso; lia]; cbn [gpat along agrees T_ F_ O_]; destruct (e (S (S (S (S (S k)))))), (e (S (S (S (S k))))), (e (S (S (S k)))), (e (S (S k))), (e (S k)), (e k); rewrite ?M; reflexivity.
Qed.
Lemma along_flip e f i k : i < 6 -> (forall j, k <= j < k + 5 -> e j = f j) -> e (k + 5) = negb (f (k + 5)) -> along e k (gpat i) = along f k (epat i).
Proof.
  intros H A B. replace (k + 5) with (S (S (S (S (S k))))) in B by lia.
  destruct i as [|[|[|[|[|[|i]]]]]]; [..|exfalso; lia]; cbn [gpat epat removelast app along agrees T_ F_ O_]; rewrite !A, B by lia; destruct (f (S (S (S (S (S k)))))); reflexivity.
Qed.
Lemma along_none e s l : along e s (None :: l) = along e (S s) l.
Proof. reflexivity. Qed.
Lemma rhit_spat n pi i t : i < 6 -> t < 5 -> 6 <= n -> rhit (rises n pi) i t = whit (rises n pi) (n - 5 + t) (spat t i).
Proof.
  intros H Ht Hn. set (e := rises n pi).
  assert (P : forall j l, along e (j + n) l = along e j l) by (intros j l; exact (along_period n pi j l)).
  destruct t as [|[|[|[|[|t]]]]]; [..|lia]; (destruct i as [|[|[|[|[|[|i]]]]]]; [..|exfalso; lia]); unfold rhit; cbn [trail spat whit gpat Nat.ltb Nat.leb Nat.eqb repeat app Nat.sub T_ F_ O_]; rewrite ?along_none;
    try match goal with |- context [along e ?s _] =>
      first [replace s with (0 + n) by lia|replace s with (1 + n) by lia|replace s with (2 + n) by lia|replace s with (3 + n) by lia|replace s with (4 + n) by lia]; rewrite P end; cbn [along agrees];
    repeat match goal with |- context [e ?k] => destruct (e k) end; reflexivity.
Qed.

(** rising runs as a sum over the cycle *)
Lemma rhit_window n pi i t : i < 6 -> t < n -> 12 <= n ->
  rhit (steps n pi) i t = whit (rises n pi) (n - 6 + (if t =? n - 1 then 0 else S t)) (rpat (if t =? n - 1 then 0 else S t) i).
Proof.
  intros H Ht Hn. destruct (Nat.eqb_spec t (n - 1)) as [->|N].
  - cbn [rpat whit]. replace (n - 1) with (5 + (n - 6)) by lia. rewrite rhit_gpat by exact H. rewrite Nat.add_0_r. apply along_flip; [exact H| |].
    + intros j Hj. unfold steps. replace (j =? n - 1) with false by (symmetry; apply Nat.eqb_neq; lia). reflexivity.
    + unfold steps. replace (n - 6 + 5) with (n - 1) by lia. now rewrite Nat.eqb_refl.
  - rewrite (rhit_ext _ (rises n pi)) by (intros k Hk; unfold steps; replace (k =? n - 1) with false by (symmetry; apply Nat.eqb_neq; lia); reflexivity).
    cbn [rpat]. destruct (Nat.ltb_spec t 5) as [L|L].
    + rewrite rhit_spat by lia. f_equal. lia.
    + cbn [whit]. replace t with (5 + (t - 5)) at 1 by lia. rewrite rhit_gpat by exact H.
      replace (n - 6 + S t) with (t - 5 + n) by lia. now rewrite along_period.
Qed.
Lemma rpat_far u i : 6 <= u -> rpat u i = Some (gpat i).
Proof. intro H. destruct u as [|t]; [lia|]. cbn [rpat]. replace (t <? 5) with false by (symmetry; apply Nat.ltb_ge; lia). reflexivity. Qed.

Open Scope R_scope.
Definition G (n : nat) (i : nat) (pi : list nat) (u : nat) : R := b2r (along (rises n pi) (n - 6 + u) (gpat i)).
Definition S_ (n : nat) (i : nat) (pi : list nat) (u : nat) : R := b2r (whit (rises n pi) (n - 6 + u) (rpat u i)).
Lemma rhit_total n pi i : (i < 6)%nat -> (12 <= n)%nat ->
  rsum n (fun t => b2r (rhit (steps n pi) i t)) = rsum n (G n i pi) + rsum 6 (fun u => S_ n i pi u - G n i pi u).
Proof.
  intros H Hn. rewrite (rsum_ext n _ (fun t => S_ n i pi (if t =? n - 1 then 0 else S t)%nat)) by (intros t Ht; unfold S_; now rewrite rhit_window).
  assert (R : rsum n (fun t => S_ n i pi (if t =? n - 1 then 0 else S t)%nat) = rsum n (S_ n i pi)).
  { set (h := fun u => S_ n i pi u). assert (E : forall m, rsum (m + 1) (fun t => h (if t =? m then 0 else S t)%nat) = rsum (1 + m) h).
    { intro m. rewrite !rsum_split.
      rewrite (rsum_ext m _ (fun k => h (1 + k)%nat)) by (intros t Ht; replace (t =? m)%nat with false by (symmetry; apply Nat.eqb_neq; lia); reflexivity).
      cbn [rsum]. rewrite Nat.add_0_r, Nat.eqb_refl. ring. }
    specialize (E (n - 1)%nat). replace (n - 1 + 1)%nat with n in E by lia. replace (1 + (n - 1))%nat with n in E by lia. exact E. }
  rewrite R. rewrite rsum_minus.
  assert (E : forall f, rsum n f = rsum 6 f + rsum (n - 6) (fun k => f (6 + k)%nat)) by (intro f; rewrite <- rsum_split; f_equal; lia). rewrite !E.
  rewrite (rsum_ext (n - 6) (fun k => S_ n i pi (6 + k)%nat) (fun k => G n i pi (6 + k)%nat)); [ring|].
  intros k Hk. unfold S_, G. rewrite rpat_far by lia. reflexivity.
Qed.
