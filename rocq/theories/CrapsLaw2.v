(** From lists of throws to the rules, and the limits of the law. *)
From Coq Require Import Lia Lra Bool.
From Verif Require Import BaseLemmas OpermLemmas CountLemmas.
From Verif Require Export CrapsLaw.
Open Scope R_scope.

Lemma in_tuples {B} (A : list B) m : forall l, In l (tuples A m) <-> length l = m /\ forall x, In x l -> In x A.
Proof.
  induction m as [|m IH]; intro l; cbn [tuples].
  - split; [intros [<-|[]]; split; [reflexivity|intros x []]|]. intros (E & _). destruct l; [now left|discriminate].
  - rewrite in_flat_map. split.
    + intros (rows & R & M). apply in_map_iff in M. destruct M as (r & <- & W). apply IH in R. destruct R as (L & B'). split; [cbn; lia|]. intros x [<-|X]; auto.
    + intros (L & B'). destruct l as [|r rows]; [discriminate|]. exists rows. split; [apply IH; split; [cbn in L; lia|intros; apply B'; now right]|].
      apply (in_map (fun r => r :: rows)). apply B'. now left.
Qed.
Lemma tuples_nodup {B} (A : list B) m : NoDup A -> NoDup (tuples A m).
Proof.
  intro NA. induction m as [|m IH]; cbn [tuples]; [constructor; [intros []|constructor]|]. induction IH as [|r L N1 N2 IH2]; cbn [flat_map]; [constructor|].
  apply nodup_app; [|exact IH2|].
  - apply FinFun.Injective_map_NoDup; [intros a b E; congruence|exact NA].
  - intros x X Y. apply in_map_iff in X. destruct X as (a & <- & _). apply in_flat_map in Y. destruct Y as (r' & R & Y). apply in_map_iff in Y. destruct Y as (b & E & _).
    injection E as _ ->. contradiction.
Qed.
Lemma die_nodup : NoDup die.
Proof. unfold die. repeat constructor; cbn [In]; intuition discriminate. Qed.
Lemma in_die x : In x die <-> (1 <= x <= 6)%N.
Proof. unfold die. cbn [In]. lia. Qed.
Lemma in_rolls L l : In l (tuples die (2 * L)) <-> rolls_of L l.
Proof. rewrite in_tuples. unfold rolls_of. split; intros (A & B); (split; [exact A|]); intros x X; apply in_die; auto. Qed.

(** ** lists of throws *)
Definition sums (ts : list N) : Prop := forall t, In t ts -> (2 <= t <= 12)%N.
Lemma pairup_sums : forall L l, rolls_of L l -> length (pairup l) = L /\ sums (pairup l).
Proof.
  induction L as [|L IH]; intros l (E & B).
  - destruct l; [|discriminate]. split; [reflexivity|intros t []].
  - destruct l as [|a [|b l]]; try (cbn in E; lia). destruct (IH l) as (IL & IS); [split; [cbn in E; lia|intros; apply B; do 2 right; assumption]|].
    cbn [pairup length]. split; [lia|]. intros t [<-|T]; [|auto]. pose proof (B a (or_introl eq_refl)). pose proof (B b (or_intror (or_introl eq_refl))). lia.
Qed.
Lemma pairup_nth : forall L l, rolls_of L l -> forall i, nth i (pairup l) 2%N = (rolled l (2 * i) + rolled l (2 * i + 1))%N.
Proof.
  unfold rolled. induction L as [|L IH]; intros l (E & B) i.
  - destruct l; [|discriminate]. cbn [pairup]. rewrite !nth_overflow by (cbn; lia). reflexivity.
  - destruct l as [|a [|b l]]; try (cbn in E; lia). cbn [pairup]. destruct i as [|i]; [reflexivity|]. cbn [nth]. rewrite IH by (split; [cbn in E; lia|intros; apply B; do 2 right; assumption]).
    replace (2 * S i)%nat with (S (S (2 * i))) by lia. reflexivity.
Qed.
Lemma nth_skip {A} (d : A) j : forall l i, nth i (skipn j l) d = nth (j + i) l d.
Proof. induction j as [|j IH]; intros [|x l] i; cbn [skipn Nat.add nth]; try reflexivity; [destruct i; reflexivity|apply IH]. Qed.
Lemma later_ok : forall k goal point ts, (k < length ts)%nat ->
  later k goal point ts = true <-> (forall i, (i < k)%nat -> nth i ts 2%N <> 7%N /\ nth i ts 2%N <> point) /\ nth k ts 2%N = goal.
Proof.
  induction k as [|k IH]; intros goal point ts H; (destruct ts as [|t ts]; [cbn in H; lia|]); cbn [later nth].
  - rewrite N.eqb_eq. split; [intros ->; split; [intros; lia|reflexivity]|intros (_ & E); exact E].
  - rewrite !andb_true_iff, !negb_true_iff, !N.eqb_neq, IH by (cbn in H; lia). split.
    + intros ((T7 & TP) & R & G). split; [|exact G]. intros [|i] I; [auto|]. apply R. lia.
    + intros (R & G). split; [exact (R 0%nat ltac:(lia))|]. split; [|exact G]. intros i I. apply (R (S i)). lia.
Qed.
Lemma point_ok t : (2 <= t <= 12)%N -> existsb (N.eqb t) points = true <-> ~ In t [7; 11; 2; 3; 12]%N.
Proof.
  intro B. assert (D : (t = 2 \/ t = 3 \/ t = 4 \/ t = 5 \/ t = 6 \/ t = 7 \/ t = 8 \/ t = 9 \/ t = 10 \/ t = 11 \/ t = 12)%N) by lia.
  destruct D as [-> | [-> | [-> | [-> | [-> | [-> | [-> | [-> | [-> | [-> | ->]]]]]]]]]]; cbn; intuition discriminate.
Qed.
Lemma played_ok throws ts m won : (forall i, throws i = nth i ts 2%N) -> sums ts -> (m <= length ts)%nat ->
  plays throws m won <-> played (m, won) ts = true.
Proof.
  intros E S H. split.
  - intro P. destruct ts as [|t ts]; [exfalso; inversion P; subst; cbn in H; lia|]. assert (T0 : throws 0%nat = t) by (now rewrite E). pose proof (S t (or_introl eq_refl)) as B.
    inversion P as [A|A|n A A2 A3 A4|n A A2 A3 A4]; subst m won; rewrite T0 in *; cbn [played].
    + apply orb_true_iff. rewrite !N.eqb_eq. exact A.
    + rewrite !orb_true_iff, !N.eqb_eq. tauto.
    + destruct n as [|n]; [lia|]. apply andb_true_iff. split; [now apply point_ok|]. apply later_ok; [cbn in H; lia|]. split.
      * intros i I. specialize (A2 (Datatypes.S i) ltac:(lia)). rewrite E in A2. exact A2.
      * rewrite E in A4. exact A4.
    + destruct n as [|n]; [lia|]. apply andb_true_iff. split; [now apply point_ok|]. apply later_ok; [cbn in H; lia|]. split.
      * intros i I. specialize (A2 (Datatypes.S i) ltac:(lia)). rewrite E in A2. exact A2.
      * rewrite E in A4. exact A4.
  - intro P. destruct ts as [|t ts]; [destruct m as [|[|]], won; discriminate|]. assert (T0 : throws 0%nat = t) by (now rewrite E). pose proof (S t (or_introl eq_refl)) as B.
    destruct m as [|[|m]]; cbn [played] in P; [destruct won; discriminate|..].
    + destruct won.
      * apply natural. rewrite T0. apply orb_true_iff in P. rewrite !N.eqb_eq in P. exact P.
      * apply craps_out. rewrite T0. rewrite !orb_true_iff, !N.eqb_eq in P. tauto.
    + assert (P' : existsb (N.eqb t) points = true /\ later m (if won then t else 7%N) t ts = true) by (destruct won; now apply andb_true_iff in P). destruct P' as (P1 & P2). apply point_ok in P1; [|exact B].
      apply later_ok in P2; [|cbn in H; lia]. destruct P2 as (P2 & P3).
      assert (Q2 : forall i, (0 < i < Datatypes.S m)%nat -> throws i <> 7%N /\ throws i <> throws 0%nat).
      { intros [|i] I; [lia|]. rewrite T0, E. apply P2. lia. }
      rewrite <- T0 in P1. destruct won; [apply point_made|apply seven_out]; try assumption; try lia; rewrite E; [rewrite T0|]; exact P3.
Qed.
Lemma series_ok L l : rolls_of L l -> forall rs j, (j + throws_of rs <= L)%nat ->
  (exists c', series (rolled l) (2 * j) rs c') <-> series_of rs (skipn j (pairup l)) = true.
Proof.
  intro R. destruct (pairup_sums L l R) as (LT & ST). pose proof (pairup_nth L l R) as NT. induction rs as [|(m & won) rs IH]; intros j H.
  - split; [reflexivity|]. intros _. eexists. constructor.
  - unfold throws_of in H. cbn [map list_sum fold_right fst] in H. change (fold_right Nat.add 0%nat (map fst rs)) with (throws_of rs) in H.
    assert (TH : forall i, throws_from (rolled l) (2 * j) i = nth i (skipn j (pairup l)) 2%N).
    { intro i. rewrite nth_skip, NT. unfold throws_from. do 2 f_equal; lia. }
    assert (SJ : sums (skipn j (pairup l))). { intros t T. apply ST. rewrite <- (firstn_skipn j (pairup l)). apply in_or_app. now right. }
    assert (PO : plays (throws_from (rolled l) (2 * j)) m won <-> played (m, won) (skipn j (pairup l)) = true).
    { apply played_ok; [exact TH|exact SJ|]. rewrite skipn_length. lia. }
    assert (SK : skipn m (skipn j (pairup l)) = skipn (j + m) (pairup l)). { clear. revert j. induction (pairup l) as [|x r IH]; intros [|j]; cbn [skipn Nat.add]; try reflexivity; [destruct m; reflexivity|apply IH]. }
    cbn [series_of fst]. rewrite andb_true_iff, <- PO, SK, <- IH by lia. replace (2 * (j + m))%nat with (2 * j + 2 * m)%nat by lia. split.
    + intros (c' & S). inversion S; subst. split; [assumption|eexists; eassumption].
    + intros (P & c' & S). exists c'. now constructor.
Qed.

(** ** counting *)
Lemma filter_count {A} (b : A -> bool) l : INR (length (filter b l)) = lsumR l (fun x => ind (b x)).
Proof. induction l as [|x l IH]; cbn [filter lsumR]; [reflexivity|]. destruct (b x); cbn [length ind]; rewrite ?S_INR, IH; ring. Qed.
Lemma counted {A} (l : list A) (b : A -> bool) (P : A -> Prop) : NoDup l -> (forall x, P x <-> In x l /\ b x = true) -> exactly (length (filter b l)) P.
Proof. intros N H. exists (filter b l). split; [now apply NoDup_filter|]. split; [|reflexivity]. intro x. rewrite filter_In. symmetry. apply H. Qed.

(** ** limits *)
Lemma infinite_bound s l C : (forall n, Rabs (sum_f_R0 s n - l) <= C * (3 / 4) ^ n) -> infinite_sum s l.
Proof.
  intros H eps E. assert (C0 : 0 <= C). { specialize (H 0%nat). pose proof (Rabs_pos (sum_f_R0 s 0 - l)). cbn [pow] in H. lra. }
  destruct (pow_lt_1_zero (3 / 4) ltac:(rewrite Rabs_pos_eq; lra) (eps / (C + 1)) ltac:(apply Rdiv_lt_0_compat; lra)) as (N & HN). exists N. intros n Hn.
  unfold R_dist. eapply Rle_lt_trans; [apply H|]. specialize (HN n Hn). assert (P : 0 <= (3 / 4) ^ n) by (apply pow_le; lra). rewrite Rabs_pos_eq in HN by exact P.
  apply Rle_lt_trans with ((C + 1) * (3 / 4) ^ n); [nra|]. apply (Rmult_lt_compat_l (C + 1)) in HN; [|lra]. replace ((C + 1) * (eps / (C + 1))) with eps in HN by (field; lra). exact HN.
Qed.
Lemma small_pow q n : 0 <= q <= 3 / 4 -> 0 <= q ^ n <= (3 / 4) ^ n.
Proof. intro H. split; [apply pow_le; lra|apply pow_incr; lra]. Qed.
Definition q4 : R := 27 / 36. Definition q5 : R := 13 / 18. Definition q6 : R := 25 / 36.
Lemma law_won k : game_law (S (S k), true) = (9 * q4 ^ k + 16 * q5 ^ k + 25 * q6 ^ k) / 648.
Proof.
  cbn [game_law fold_right points]. cbv [ways2]. replace (1 - 6 / 36 - 3 / 36) with q4 by (unfold q4; lra). replace (1 - 6 / 36 - 4 / 36) with q5 by (unfold q5; lra).
  replace (1 - 6 / 36 - 5 / 36) with q6 by (unfold q6; lra). field.
Qed.
Lemma law_lost k : game_law (S (S k), false) = (18 * q4 ^ k + 24 * q5 ^ k + 30 * q6 ^ k) / 648.
Proof.
  cbn [game_law fold_right points]. cbv [ways2]. replace (1 - 6 / 36 - 3 / 36) with q4 by (unfold q4; lra). replace (1 - 6 / 36 - 4 / 36) with q5 by (unfold q5; lra).
  replace (1 - 6 / 36 - 5 / 36) with q6 by (unfold q6; lra). field.
Qed.
Lemma law_length k : length_law (S (S k)) = (27 * q4 ^ k + 40 * q5 ^ k + 55 * q6 ^ k) / 648.
Proof. unfold length_law. rewrite law_won, law_lost. field. Qed.
Lemma tail_sum m n : sum_f_R0 (fun j => length_law (S (S m) + j)) n = (108 * (q4 ^ m - q4 ^ (m + S n)) + 144 * (q5 ^ m - q5 ^ (m + S n)) + 180 * (q6 ^ m - q6 ^ (m + S n))) / 648.
Proof.
  induction n as [|n IH]; cbn [sum_f_R0]; [|rewrite IH].
  - rewrite Nat.add_0_r, law_length, Nat.add_1_r. cbn [pow]. unfold q4, q5, q6. field.
  - replace (S (S m) + S n)%nat with (S (S (m + S n))) by lia. rewrite law_length. replace (m + S (S n))%nat with (S (m + S n)) by lia. cbn [pow]. unfold q4, q5, q6. field.
Qed.
Lemma tail_limit m : infinite_sum (fun j => length_law (S (S m) + j)) ((108 * q4 ^ m + 144 * q5 ^ m + 180 * q6 ^ m) / 648).
Proof.
  apply (infinite_bound _ _ 1). intro n. rewrite tail_sum. pose proof (small_pow q4 m ltac:(unfold q4; lra)) as A4. pose proof (small_pow q5 m ltac:(unfold q5; lra)) as A5. pose proof (small_pow q6 m ltac:(unfold q6; lra)) as A6.
  rewrite !pow_add. pose proof (small_pow q4 (S n) ltac:(unfold q4; lra)) as B4. pose proof (small_pow q5 (S n) ltac:(unfold q5; lra)) as B5. pose proof (small_pow q6 (S n) ltac:(unfold q6; lra)) as B6.
  assert (T : (3 / 4) ^ S n <= (3 / 4) ^ n) by (cbn [pow]; pose proof (pow_le (3 / 4) n ltac:(lra)); lra).
  assert (M1 : (3 / 4) ^ m <= 1) by (rewrite <- (pow1 m); apply pow_incr; lra).
  set (t := (3 / 4) ^ n) in *. set (t' := (3 / 4) ^ S n) in *. clearbody t t'. rewrite Rabs_left1; nra.
Qed.
Lemma won_sum n : sum_f_R0 (fun j => game_law (S j, true)) n = 2 / 9 + (36 * (1 - q4 ^ n) + 288 / 5 * (1 - q5 ^ n) + 900 / 11 * (1 - q6 ^ n)) / 648.
Proof.
  induction n as [|n IH]; cbn [sum_f_R0]; [cbn [game_law pow]; cbv [ways2]; field|]. rewrite IH, law_won. cbn [pow]. unfold q4, q5, q6. field.
Qed.
Lemma won_limit : infinite_sum (fun j => game_law (S j, true)) (244 / 495).
Proof.
  apply (infinite_bound _ _ 1). intro n. rewrite won_sum. pose proof (small_pow q4 n ltac:(unfold q4; lra)) as B4. pose proof (small_pow q5 n ltac:(unfold q5; lra)) as B5. pose proof (small_pow q6 n ltac:(unfold q6; lra)) as B6.
  rewrite Rabs_left1; lra.
Qed.
Lemma lost_sum n : sum_f_R0 (fun j => game_law (S j, false)) n = 1 / 9 + (72 * (1 - q4 ^ n) + 432 / 5 * (1 - q5 ^ n) + 1080 / 11 * (1 - q6 ^ n)) / 648.
Proof.
  induction n as [|n IH]; cbn [sum_f_R0]; [cbn [game_law pow]; cbv [ways2]; field|]. rewrite IH, law_lost. cbn [pow]. unfold q4, q5, q6. field.
Qed.
Lemma lost_limit : infinite_sum (fun j => game_law (S j, false)) (251 / 495).
Proof.
  apply (infinite_bound _ _ 1). intro n. rewrite lost_sum. pose proof (small_pow q4 n ltac:(unfold q4; lra)) as B4. pose proof (small_pow q5 n ltac:(unfold q5; lra)) as B5. pose proof (small_pow q6 n ltac:(unfold q6; lra)) as B6.
  rewrite Rabs_left1; lra.
Qed.

(** ** moments of the number of games won *)
Lemma mean_sum M n f : mean_over M n f = lsumR (tuples (short_games M) n) (fun rs => series_law rs * f rs).
Proof.
  unfold mean_over. replace (short_series M n) with (tuples (short_games M) n). 2: { induction n as [|n IH]; cbn [tuples short_series]; [reflexivity|]. now rewrite IH. }
  induction (tuples (short_games M) n) as [|x l IH]; cbn [fold_right lsumR]; [reflexivity|]. now rewrite IH.
Qed.
Definition share (won : bool) (M : nat) : R := lsumR (seq 1 M) (fun m => game_law (m, won)).
Lemma mean_step M n (f : R -> R) c : mean_over M (S n) (fun rs => f (c - games_won rs)) =
  share true M * mean_over M n (fun rs => f (c - 1 - games_won rs)) + share false M * mean_over M n (fun rs => f (c - games_won rs)).
Proof.
  rewrite !mean_sum, tuples_sum. unfold short_games at 1. rewrite lsumR_app, !lsumR_map. unfold share. rewrite <- !lsumR_scale_r. f_equal; apply lsumR_ext; intros m _; rewrite <- lsumR_scale; apply lsumR_ext; intros rs _.
  - unfold games_won. cbn [filter snd length series_law fold_right]. rewrite S_INR. fold (series_law rs). replace (c - (INR (length (filter snd rs)) + 1)) with (c - 1 - INR (length (filter snd rs))) by ring. ring.
  - unfold games_won. cbn [filter snd length series_law fold_right]. fold (series_law rs). ring.
Qed.
Lemma share_sum won M : share won (S M) = sum_f_R0 (fun j => game_law (S j, won)) M.
Proof.
  unfold share. induction M as [|M IH]; [cbn; ring|]. rewrite seq_S, lsumR_app, IH. cbn [sum_f_R0 lsumR Nat.add]. ring.
Qed.
Lemma cv_shift u l : Un_cv (fun n => u (S n)) l -> Un_cv u l.
Proof. intros H eps E. destruct (H eps E) as (N & HN). exists (S N). intros [|n] Hn; [lia|]. apply HN. lia. Qed.
Lemma share_limit won : Un_cv (share won) (if won then 244 / 495 else 251 / 495).
Proof.
  apply cv_shift. intros eps E. assert (H : infinite_sum (fun j => game_law (S j, won)) (if won then 244 / 495 else 251 / 495)) by (destruct won; [apply won_limit|apply lost_limit]).
  destruct (H eps E) as (N & HN). exists N. intros n Hn. rewrite share_sum. now apply HN.
Qed.
Lemma cv_ext u v l : (forall n, u n = v n) -> Un_cv u l -> Un_cv v l.
Proof. intros H U eps E. destruct (U eps E) as (N & HN). exists N. intros n Hn. rewrite <- H. now apply HN. Qed.
Lemma cv_const c : Un_cv (fun _ => c) c.
Proof. intros eps E. exists 0%nat. intros n _. unfold R_dist. rewrite Rminus_diag_eq, Rabs_R0 by reflexivity. exact E. Qed.
Lemma moments_limit (f : R -> R) (g : nat -> R -> R) : (forall c, g 0%nat c = f c) ->
  (forall n c, g (S n) c = 244 / 495 * g n (c - 1) + 251 / 495 * g n c) ->
  forall n c, Un_cv (fun M => mean_over M n (fun rs => f (c - games_won rs))) (g n c).
Proof.
  intros G0 GS. induction n as [|n IH]; intro c.
  - rewrite G0. apply (cv_ext (fun _ => f c)); [|apply cv_const]. intro M. rewrite mean_sum. cbn [tuples lsumR series_law fold_right]. unfold games_won. cbn [filter length INR]. rewrite Rminus_0_r. ring.
  - rewrite GS. eapply cv_ext; [intro M; symmetry; apply mean_step|]. apply CV_plus; apply CV_mult; try apply IH; [exact (share_limit true)|exact (share_limit false)].
Qed.
