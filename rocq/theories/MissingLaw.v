(** Sums over all sequences of generator results. *)
From Coq Require Import Lia Lra Bool.
From Verif Require Import BaseLemmas TallyLemmas.
From Verif Require Export MissingLawSpec RankLawLemmas OpermReal.
Open Scope R_scope.

Lemma lsumR_app {A} (a b : list A) f : lsumR (a ++ b) f = lsumR a f + lsumR b f.
Proof. induction a as [|x a IH]; cbn [app lsumR]; [ring|]. rewrite IH. ring. Qed.
Lemma lsumR_map {A B} (h : A -> B) l f : lsumR (map h l) f = lsumR l (fun x => f (h x)).
Proof. induction l as [|x l IH]; cbn [map lsumR]; [reflexivity|]. now rewrite IH. Qed.
Lemma lsumR_flat {A B} (h : A -> list B) l f : lsumR (flat_map h l) f = lsumR l (fun x => lsumR (h x) f).
Proof. induction l as [|x l IH]; cbn [flat_map lsumR]; [reflexivity|]. now rewrite lsumR_app, IH. Qed.
Lemma lsumR_zero {A} (l : list A) : lsumR l (fun _ => 0) = 0.
Proof. induction l as [|x l IH]; cbn [lsumR]; [reflexivity|]. rewrite IH. ring. Qed.
Lemma lsumR_swap {A B} (l : list A) (m : list B) f : lsumR l (fun x => lsumR m (f x)) = lsumR m (fun y => lsumR l (fun x => f x y)).
Proof.
  induction l as [|x l IH]; cbn [lsumR]; [now rewrite lsumR_zero|]. rewrite IH, <- lsumR_plus. reflexivity.
Qed.
Lemma lsumR_scale_r {A} (l : list A) c f : lsumR l (fun x => f x * c) = lsumR l f * c.
Proof. rewrite Rmult_comm, <- lsumR_scale. apply lsumR_ext. intros; ring. Qed.
Lemma lsumR_const {A} (l : list A) c : lsumR l (fun _ => c) = INR (length l) * c.
Proof. induction l as [|x l IH]; cbn [lsumR]; [cbn; ring|]. rewrite IH. cbn [length]. rewrite S_INR. ring. Qed.

(** ** words cut in two *)
Lemma words_cut a b f : lsumR (words (a + N.of_nat b)) f = lsumR (words a) (fun lo => lsumR (words (N.of_nat b)) (fun hi => f (lo + 2 ^ a * hi)%N)).
Proof.
  revert f. induction b as [|b IH]; intro f.
  - change (words (N.of_nat 0)) with [0%N]. replace (a + N.of_nat 0)%N with a by lia. apply lsumR_ext. intros x _. cbn [lsumR]. rewrite N.mul_0_r, N.add_0_r. ring.
  - replace (N.of_nat (S b)) with (N.of_nat b + 1)%N by lia. rewrite N.add_assoc, !words_succ, lsumR_app, IH, lsumR_map, IH, <- lsumR_plus.
    apply lsumR_ext. intros x _. rewrite lsumR_app, lsumR_map. f_equal. apply lsumR_ext. intros y _. f_equal. rewrite N.pow_add_r. lia.
Qed.
Lemma words_len w : INR (length (words w)) = IZR (2 ^ Z.of_N w).
Proof. rewrite INR_IZR_INZ. f_equal. pose proof (words_length w) as E. apply (f_equal Z.of_N) in E. rewrite nat_N_Z in E. rewrite E, N2Z.inj_pow. reflexivity. Qed.
Lemma matrices_sum w m f : lsumR (matrices w (S m)) f = lsumR (matrices w m) (fun rows => lsumR (words w) (fun r => f (r :: rows))).
Proof. cbn [matrices]. rewrite lsumR_flat. apply lsumR_ext. intros rows _. apply lsumR_map. Qed.
Fixpoint join (a : N) (lo hi : list N) : list N :=
  match lo, hi with x :: lo, y :: hi => (x + 2 ^ a * y)%N :: join a lo hi | _, _ => [] end.
Lemma matrices_cut a b m : forall f, lsumR (matrices (a + N.of_nat b) m) f = lsumR (matrices a m) (fun lo => lsumR (matrices (N.of_nat b) m) (fun hi => f (join a lo hi))).
Proof.
  induction m as [|m IH]; intro f; [cbn [matrices lsumR join]; ring|]. rewrite !matrices_sum, IH. apply lsumR_ext. intros lo _.
  symmetry. etransitivity; [apply (lsumR_ext (words a)); intros x _; apply matrices_sum|]. cbn [join].
  rewrite lsumR_swap. apply lsumR_ext. intros hi _. symmetry. apply (words_cut a b (fun r => f (r :: join a lo hi))).
Qed.
Lemma matrices_app w a b : forall f, lsumR (matrices w (a + b)) f = lsumR (matrices w a) (fun x => lsumR (matrices w b) (fun y => f (x ++ y))).
Proof.
  induction a as [|a IH]; intro f; [cbn [matrices lsumR app Nat.add]; now rewrite Rplus_0_r|]. cbn [Nat.add]. rewrite !matrices_sum, IH. apply lsumR_ext. intros x _. rewrite lsumR_swap. reflexivity.
Qed.
Lemma in_matrices w m : forall l, In l (matrices w m) <-> length l = m /\ forall x, In x l -> (x < 2 ^ w)%N.
Proof.
  induction m as [|m IH]; intro l; cbn [matrices].
  - split; [intros [<-|[]]; split; [reflexivity|intros x []]|]. intros (E & _). destruct l; [now left|discriminate].
  - rewrite in_flat_map. split.
    + intros (rows & R & M). apply in_map_iff in M. destruct M as (r & <- & W). apply IH in R. destruct R as (L & B). apply in_words in W. split; [cbn; lia|].
      intros x [<-|X]; auto.
    + intros (L & B). destruct l as [|r rows]; [discriminate|]. exists rows. split; [apply IH; split; [cbn in L; lia|intros; apply B; now right]|].
      apply (in_map (fun r => r :: rows)). apply in_words. apply B. now left.
Qed.
Lemma matrices_len w m : INR (length (matrices w m)) = IZR (2 ^ Z.of_N w) ^ m.
Proof.
  rewrite <- (Rmult_1_r (INR _)), <- lsumR_const. induction m as [|m IH]; [cbn; ring|]. rewrite matrices_sum.
  rewrite (lsumR_ext _ _ (fun _ => IZR (2 ^ Z.of_N w) * 1)) by (intros; now rewrite lsumR_const, words_len). rewrite lsumR_scale, IH. reflexivity.
Qed.

(** ** letters spelled out *)
Lemma spell_cons d x l : spell d (x :: l) = (spell d l + 2 ^ (d * N.of_nat (length l)) * x)%N.
Proof.
  unfold spell. cbn [fold_left]. rewrite N.mul_0_l, N.add_0_l.
  assert (G : forall l a, fold_left (fun acc y => acc * 2 ^ d + y)%N l a = (fold_left (fun acc y => acc * 2 ^ d + y) l 0 + 2 ^ (d * N.of_nat (length l)) * a)%N).
  { clear. induction l as [|y l IH]; intro a; cbn [fold_left length]; [rewrite N.mul_0_r, N.pow_0_r; lia|].
    rewrite IH, (IH (0 * 2 ^ d + y)%N). rewrite Nat2N.inj_succ, N.mul_succ_r, N.pow_add_r. lia. }
  apply G.
Qed.
Lemma spelled_sum d m : forall h, lsumR (matrices d m) (fun l => h (spell d l)) = lsumR (words (d * N.of_nat m)) h.
Proof.
  induction m as [|m IH]; intro h.
  - rewrite N.mul_0_r. cbn [matrices lsumR]. change (words 0) with [0%N]. reflexivity.
  - rewrite matrices_sum. replace (d * N.of_nat (S m))%N with (d * N.of_nat m + N.of_nat (N.to_nat d))%N by lia.
    rewrite words_cut, N2Nat.id. rewrite <- IH. apply lsumR_ext. intros l L. apply in_matrices in L. destruct L as (L & _).
    apply lsumR_ext. intros x _. now rewrite spell_cons, L.
Qed.

(** ** products along a sequence of words *)
Fixpoint rprod (n : nat) (f : nat -> R) : R := match n with O => 1 | S n => f O * rprod n (fun s => f (S s)) end.
Lemma rprod_ext n : forall f g, (forall s, (s < n)%nat -> f s = g s) -> rprod n f = rprod n g.
Proof. induction n as [|n IH]; intros f g H; [reflexivity|]. cbn [rprod]. rewrite (H O) by lia. f_equal. apply IH. intros s S. apply H. lia. Qed.
Lemma rprod_app a b : forall f, rprod (a + b) f = rprod a f * rprod b (fun s => f (a + s)%nat).
Proof. induction a as [|a IH]; intro f; cbn [Nat.add rprod]; [now rewrite Rmult_1_l|]. rewrite IH. ring. Qed.
Lemma rprod_mul n : forall f g, rprod n f * rprod n g = rprod n (fun s => f s * g s).
Proof. induction n as [|n IH]; intros f g; cbn [rprod]; [ring|]. rewrite <- IH. ring. Qed.

(** word s of a block: one letter of d bits from every result *)
Definition bword (d : N) (blk : list N) (s : nat) : N := spell d (map (fun x => field x (d * N.of_nat s) d) blk).
Lemma field_low a x y : (x < 2 ^ a)%N -> field (x + 2 ^ a * y) 0 a = x.
Proof. intro H. unfold field. rewrite N.pow_0_r, N.div_1_r, N.mul_comm, N.mod_add by (apply N.pow_nonzero; lia). now apply N.mod_small. Qed.
Lemma field_high a x y s : (x < 2 ^ a)%N -> field (x + 2 ^ a * y) (a * N.of_nat (S s)) a = field y (a * N.of_nat s) a.
Proof.
  intro H. unfold field. f_equal. rewrite Nat2N.inj_succ, N.mul_succ_r, N.add_comm, N.add_comm, (N.add_comm _ a), N.pow_add_r.
  rewrite <- N.div_div by (apply N.pow_nonzero; lia). f_equal. symmetry. apply (N.div_unique _ (2 ^ a) y x H). lia.
Qed.
Lemma join_low a : forall lo hi, length lo = length hi -> (forall x, In x lo -> (x < 2 ^ a)%N) -> map (fun x => field x (a * N.of_nat 0) a) (join a lo hi) = lo.
Proof.
  induction lo as [|x lo IH]; intros [|y hi] L B; try discriminate; [reflexivity|]. cbn [join map]. rewrite N.mul_0_r. rewrite field_low by (apply B; now left).
  f_equal. rewrite <- (IH hi) at 2; [now rewrite N.mul_0_r|cbn in L; lia|]. intros; apply B; now right.
Qed.
Lemma join_high a s : forall lo hi, length lo = length hi -> (forall x, In x lo -> (x < 2 ^ a)%N) ->
  map (fun x => field x (a * N.of_nat (S s)) a) (join a lo hi) = map (fun x => field x (a * N.of_nat s) a) hi.
Proof.
  induction lo as [|x lo IH]; intros [|y hi] L B; try discriminate; [reflexivity|]. cbn [join map]. rewrite field_high by (apply B; now left).
  f_equal. apply IH; [cbn in L; lia|]. intros; apply B; now right.
Qed.
Lemma block_sum d m phi r t : lsumR (matrices (d * N.of_nat t + N.of_nat r) m) (fun blk => rprod t (fun s => phi (bword d blk s))) =
  lsumR (words (d * N.of_nat m)) phi ^ t * IZR (2 ^ Z.of_nat r) ^ m.
Proof.
  induction t as [|t IH].
  - rewrite N.mul_0_r, N.add_0_l. cbn [rprod pow]. rewrite lsumR_const, matrices_len, nat_N_Z. ring.
  - replace (d * N.of_nat (S t) + N.of_nat r)%N with (d + N.of_nat (N.to_nat (d * N.of_nat t + N.of_nat r)))%N by lia. rewrite matrices_cut, N2Nat.id.
    rewrite (lsumR_ext _ _ (fun lo => phi (spell d lo) * lsumR (matrices (d * N.of_nat t + N.of_nat r) m) (fun blk => rprod t (fun s => phi (bword d blk s))))).
    + rewrite lsumR_scale_r, (spelled_sum d m phi), IH. cbn [pow]. ring.
    + intros lo LO. apply in_matrices in LO. destruct LO as (L & B). rewrite <- lsumR_scale. apply lsumR_ext. intros hi HI. apply in_matrices in HI. destruct HI as (L' & _).
      cbn [rprod]. unfold bword at 1. rewrite join_low by (congruence || exact B). f_equal. apply rprod_ext. intros s _. unfold bword. now rewrite join_high by (congruence || exact B).
Qed.

(** ** sequences of blocks *)
Definition gword (d : N) (m q : nat) (l : list N) (t : nat) : N :=
  spell d (map (fun a => field (drawn l (m * (t / q) + a)) (d * N.of_nat (t mod q)) d) (seq 0 m)).
Lemma drawn_map (l : list N) : map (drawn l) (seq 0 (length l)) = l.
Proof. unfold drawn. induction l as [|x l IH]; [reflexivity|]. cbn [length seq map nth]. f_equal. rewrite <- seq_shift, map_map. exact IH. Qed.
Lemma gword_first d m q x y t : (t < q)%nat -> length x = m -> gword d m q (x ++ y) t = bword d x t.
Proof.
  intros T L. unfold gword, bword. rewrite Nat.div_small, Nat.mod_small by exact T. f_equal.
  transitivity (map (fun z => field z (d * N.of_nat t) d) (map (drawn x) (seq 0 (length x)))); [|now rewrite drawn_map]. rewrite map_map, L.
  apply map_ext_in. intros a A. apply in_seq in A. rewrite Nat.mul_0_r, Nat.add_0_l. unfold drawn. rewrite app_nth1 by lia. reflexivity.
Qed.
Lemma gword_next d m q x y t : (0 < q)%nat -> length x = m -> gword d m q (x ++ y) (q + t) = gword d m q y t.
Proof.
  intros T L. unfold gword. replace (q + t)%nat with (t + 1 * q)%nat by lia. rewrite Nat.div_add, Nat.mod_add by lia. f_equal.
  apply map_ext. intro a. unfold drawn.
  rewrite Nat.mul_add_distr_l, Nat.mul_1_r. generalize (m * (t / q))%nat. intro k. rewrite app_nth2 by lia.
  replace (k + m + a - length x)%nat with (k + a)%nat by lia. reflexivity.
Qed.
Lemma pow_ne a n : a <> 0 -> a ^ n <> 0.
Proof. intro. now apply pow_nonzero. Qed.
Lemma two_ne z : (0 <= z)%Z -> IZR (2 ^ z) <> 0.
Proof. intro H. apply not_0_IZR. pose proof (Z.pow_pos_nonneg 2 z). lia. Qed.
Lemma sequence_sum w d m q phi : (0 < q)%nat -> (d * N.of_nat q <= w)%N -> forall B n, (n <= q * B)%nat ->
  lsumR (matrices w (m * B)) (fun l => rprod n (fun t => phi (gword d m q l t))) =
  (lsumR (words (d * N.of_nat m)) phi / IZR (2 ^ (Z.of_N d * Z.of_nat m))) ^ n * IZR (2 ^ Z.of_N w) ^ (m * B).
Proof.
  intros Q W. assert (BL : forall t, (t <= q)%nat -> lsumR (matrices w m) (fun blk => rprod t (fun s => phi (bword d blk s))) =
    (lsumR (words (d * N.of_nat m)) phi / IZR (2 ^ (Z.of_N d * Z.of_nat m))) ^ t * IZR (2 ^ Z.of_N w) ^ m).
  { intros t T. replace w with (d * N.of_nat t + N.of_nat (N.to_nat (w - d * N.of_nat t)))%N at 1 by nia. rewrite block_sum.
    set (r := N.to_nat (w - d * N.of_nat t)). unfold Rdiv. rewrite Rpow_mult_distr, <- Rinv_pow by (apply two_ne; nia). rewrite Rmult_assoc. f_equal.
    replace (2 ^ Z.of_N w)%Z with (2 ^ (Z.of_N d * Z.of_nat t) * 2 ^ Z.of_nat r)%Z by (rewrite <- Z.pow_add_r by lia; f_equal; unfold r; nia).
    rewrite mult_IZR, Rpow_mult_distr, !pow_IZR, <- !Z.pow_mul_r by lia.
    replace (Z.of_N d * Z.of_nat t * Z.of_nat m)%Z with (Z.of_N d * Z.of_nat m * Z.of_nat t)%Z by ring. field. apply two_ne. nia. }
  induction B as [|B IH]; intros n Hn.
  - replace n with 0%nat by lia. rewrite Nat.mul_0_r. cbn [matrices lsumR rprod pow]. ring.
  - replace (m * S B)%nat with (m + m * B)%nat by lia. rewrite matrices_app, pow_add.
    destruct (Nat.le_gt_cases n q) as [Le|Gt].
    + rewrite (lsumR_ext _ _ (fun x => rprod n (fun s => phi (bword d x s)) * IZR (2 ^ Z.of_N w) ^ (m * B))).
      * rewrite lsumR_scale_r, BL by exact Le. ring.
      * intros x X. apply in_matrices in X. destruct X as (L & _). rewrite (lsumR_ext _ _ (fun _ => rprod n (fun s => phi (bword d x s)))).
        { rewrite lsumR_const, matrices_len. ring. }
        intros y _. apply rprod_ext. intros t T. rewrite gword_first by (lia || exact L). reflexivity.
    + replace n with (q + (n - q))%nat by lia.
      rewrite (lsumR_ext _ _ (fun x => rprod q (fun s => phi (bword d x s)) * lsumR (matrices w (m * B)) (fun l => rprod (n - q) (fun t => phi (gword d m q l t))))).
      * rewrite lsumR_scale_r, BL, IH by lia. rewrite pow_add. ring.
      * intros x X. apply in_matrices in X. destruct X as (L & _). rewrite <- lsumR_scale. apply lsumR_ext. intros y _. rewrite rprod_app. f_equal.
        -- apply rprod_ext. intros t T. rewrite gword_first by (lia || exact L). reflexivity.
        -- apply rprod_ext. intros t T. rewrite gword_next by (lia || exact L). reflexivity.
Qed.
Lemma sequence_average w d m q phi B n : (0 < q)%nat -> (d * N.of_nat q <= w)%N -> (n <= q * B)%nat ->
  average (matrices w (m * B)) (fun l => rprod n (fun t => phi (gword d m q l t))) = (lsumR (words (d * N.of_nat m)) phi / IZR (2 ^ (Z.of_N d * Z.of_nat m))) ^ n.
Proof.
  intros Q W H. unfold average. rewrite (sequence_sum w d m q phi Q W B n H), matrices_len. field. apply pow_ne, two_ne. lia.
Qed.
