(** The first tree-filling test on all sequences of words. *)
From Coq Require Import List Arith NArith Lia Lra Reals Permutation Bool.
From Verif Require Import BaseLemmas OpermReal RunsArcs CoinLaw TreeLemmas PropTree TreeOrderSpec OrderAverage TreeOrder.
From Verif Require MissingLaw TreeBins.
Import ListNotations.
Open Scope R_scope.

(** ** sums over classes of orders *)
Lemma lsumR_filter {A} (p : A -> bool) l f : lsumR (filter p l) f = lsumR l (fun x => if p x then f x else 0).
Proof. induction l as [|x l IH]; [reflexivity|]. cbn [filter lsumR]. destruct (p x); cbn [lsumR]; rewrite IH; lra. Qed.
Lemma lsumR_swap {A B} (l : list A) (m : list B) f : lsumR l (fun x => lsumR m (f x)) = lsumR m (fun y => lsumR l (fun x => f x y)).
Proof. induction l as [|x l IH]; cbn [lsumR]; [induction m as [|y m IH]; cbn [lsumR]; lra|]. rewrite IH. now rewrite lsumR_plus. Qed.
Definition mem (l : list (list N)) (x : list N) : bool := if in_dec (list_eq_dec N.eq_dec) x l then true else false.
Lemma mem_in l x : mem l x = true <-> In x l.
Proof. unfold mem. destruct (in_dec _ x l); split; intros; congruence || assumption. Qed.
Lemma closed_sum n (G : list (list N)) f c : NoDup G -> (forall x, In x G -> NoDup x /\ length x = n) -> (forall x y, In x G -> Permutation x y -> In y G) ->
  (forall x, In x G -> oavg n x f = c) -> lsumR G f = INR (length G) * c.
Proof.
  intros ND W CL AV.
  assert (S1 : forall x h, In x G -> lsumR (orders n x) h = lsumR G (fun y => if mem (orders n x) y then h y else 0)).
  { intros x h X. destruct (W x X) as [N1 L1]. rewrite <- lsumR_filter. apply lsumR_perm. apply NoDup_Permutation; [apply orders_nodup; assumption|now apply NoDup_filter|].
    intro y. rewrite filter_In, mem_in. split; [intro I; split; [|exact I]|tauto]. apply (CL x y X). now apply orders_in in I. }
  assert (S2 : lsumR G (fun x => lsumR (orders n x) f) = INR (length G) * (INR (fact n) * c)).
  { rewrite <- lsumR_const. apply lsumR_ext. intros x X. destruct (W x X) as [N1 L1]. rewrite <- (AV x X), oavg_orders by exact L1. unfold average. rewrite orders_length by exact L1. field. apply INR_fact_neq_0. }
  rewrite (lsumR_ext G _ (fun x => lsumR G (fun y => if mem (orders n x) y then f y else 0))) in S2 by (intros; now apply S1).
  rewrite lsumR_swap in S2. rewrite (lsumR_ext G _ (fun y => INR (fact n) * f y)) in S2.
  - rewrite lsumR_scale in S2. pose proof (INR_fact_neq_0 n). apply (Rmult_eq_reg_l (INR (fact n))); [|assumption]. rewrite S2. ring.
  - intros y Y. destruct (W y Y) as [N1 L1].
    rewrite (lsumR_ext G _ (fun x => if mem (orders n y) x then f y else 0)).
    + rewrite <- (S1 y (fun _ => f y) Y). rewrite lsumR_const, orders_length by exact L1. reflexivity.
    + intros x X. destruct (W x X) as [N2 L2]. replace (mem (orders n x) y) with (mem (orders n y) x); [reflexivity|].
      apply eq_iff_eq_true. rewrite !mem_in, !orders_in by assumption. split; apply Permutation_sym.
Qed.
Lemma picks_map {A B} (h : A -> B) l : picks (map h l) = map (fun yr => (h (fst yr), map h (snd yr))) (picks l).
Proof. induction l as [|x l IH]; [reflexivity|]. cbn [map picks fst snd]. rewrite IH, !map_map. reflexivity. Qed.
Lemma oavg_map {A B} (h : A -> B) n : forall xs f, oavg n (map h xs) f = oavg n xs (fun ys => f (map h ys)).
Proof.
  induction n as [|n IH]; intros xs f; [reflexivity|]. cbn [oavg]. rewrite picks_map, lsumR_map. f_equal. apply lsumR_ext. intros (y & r) _. cbn [fst snd]. rewrite IH. reflexivity.
Qed.

(** ** sequences of words *)
Lemma words_in w x : In x (words w) <-> (x < 2 ^ w)%N.
Proof.
  unfold words. rewrite in_map_iff. split.
  - intros (k & <- & K). apply in_seq in K. lia.
  - intro H. exists (N.to_nat x). split; [apply N2Nat.id|apply in_seq; lia].
Qed.
Lemma words_nodup w : NoDup (words w).
Proof. apply FinFun.Injective_map_NoDup; [intros a b; apply Nat2N.inj|apply seq_NoDup]. Qed.
Lemma words_length w : INR (length (words w)) = IZR (2 ^ Z.of_N w).
Proof. unfold words. rewrite map_length, seq_length, INR_IZR_INZ, N_nat_Z, N2Z.inj_pow. reflexivity. Qed.
Lemma matrices_in w m : forall ws, In ws (matrices w m) <-> length ws = m /\ forall x, In x ws -> (x < 2 ^ w)%N.
Proof.
  induction m as [|m IH]; intro ws; cbn [matrices].
  - split; [intros [<-|[]]; split; [reflexivity|intros x []]|]. intros [L _]. destruct ws; [now left|discriminate].
  - rewrite in_flat_map. split.
    + intros (rows & I & J). apply in_map_iff in J. destruct J as (r & <- & R). apply IH in I. destruct I as [L B]. split; [cbn; lia|]. intros x [<-|X]; [now apply words_in|auto].
    + intros [L B]. destruct ws as [|r rows]; [discriminate|]. exists rows. split; [apply IH; split; [cbn in L; lia|intros; apply B; now right]|]. apply in_map_iff. exists r. split; [reflexivity|]. apply words_in. apply B. now left.
Qed.
Lemma matrices_nodup w m : NoDup (matrices w m).
Proof.
  induction m as [|m IH]; cbn [matrices]; [repeat constructor; intros []|].
  assert (G : forall l : list (list N), NoDup l -> NoDup (flat_map (fun rows => map (fun r => r :: rows) (words w)) l)).
  { induction l as [|a l IHl]; intro D; [constructor|]. inversion D; subst. cbn [flat_map]. apply NoDup_app'.
    - apply FinFun.Injective_map_NoDup; [intros x y E; now injection E|apply words_nodup].
    - now apply IHl.
    - intros x X1 X2. apply in_map_iff in X1. destruct X1 as (r & <- & _). apply in_flat_map in X2. destruct X2 as (b & I & J). apply in_map_iff in J. destruct J as (r' & E & _). injection E as _ ->. contradiction. }
  now apply G.
Qed.
Lemma matrices_length w m : INR (length (matrices w m)) = IZR (2 ^ Z.of_N w) ^ m.
Proof. apply MissingLaw.matrices_len. Qed.

(** different words, none of them zero *)
Fixpoint fresh (ws : list N) : bool := match ws with [] => true | r :: rows => fresh rows && negb (existsb (N.eqb r) (0%N :: rows)) end.
Lemma fresh_ok ws : fresh ws = true <-> NoDup ws /\ ~ In 0%N ws.
Proof.
  induction ws as [|r rows IH]; cbn [fresh]; [split; [split; [constructor|intros []]|reflexivity]|]. rewrite andb_true_iff, negb_true_iff, IH. split.
  - intros [[A B] C]. assert (D : forall x, In x (0%N :: rows) -> r <> x). { intros x X ->. assert (existsb (N.eqb x) (0%N :: rows) = true) by (apply existsb_exists; exists x; split; [exact X|apply N.eqb_refl]). congruence. }
    split; [constructor; [intro I; apply (D r); [now right|reflexivity]|exact A]|]. intros [E|E]; [|contradiction]. apply (D 0%N); [now left|exact E].
  - intros [A B]. inversion A; subst. split; [split; [assumption|intro; apply B; now right]|]. apply not_true_is_false. intro E. apply existsb_exists in E. destruct E as (x & X & E). apply N.eqb_eq in E. subst x. destruct X as [<-|X]; [apply B; now left|contradiction].
Qed.
Lemma fresh_perm xs ys : Permutation xs ys -> fresh xs = true -> fresh ys = true.
Proof. rewrite !fresh_ok. intros P [A B]. split; [now apply (Permutation_NoDup P)|]. intro I. apply B. now apply (Permutation_in 0%N (Permutation_sym P)). Qed.
Lemma lsumR_le {A} (l : list A) f g : (forall x, In x l -> f x <= g x) -> lsumR l f <= lsumR l g.
Proof.
  induction l as [|x l IH]; intro H; cbn [lsumR]; [lra|]. pose proof (H x (or_introl eq_refl)). assert (lsumR l f <= lsumR l g) by (apply IH; intros; apply H; now right). lra.
Qed.
Lemma few_equal w l : lsumR (words w) (fun r => b2r (existsb (N.eqb r) l)) <= INR (length l).
Proof.
  rewrite (lsumR_ext (words w) _ (fun r => if existsb (N.eqb r) l then 1 else 0)) by reflexivity. rewrite <- lsumR_filter. rewrite lsumR_const, Rmult_1_r. apply le_INR. apply NoDup_incl_length; [apply NoDup_filter, words_nodup|].
  intros x X. apply filter_In in X. destruct X as [_ X]. apply existsb_exists in X. destruct X as (y & Y & E). apply N.eqb_eq in E. now subst.
Qed.
Lemma few_stale w m : lsumR (matrices w m) (fun ws => b2r (negb (fresh ws))) * IZR (2 ^ Z.of_N w) <= INR m * (INR m + 1) / 2 * IZR (2 ^ Z.of_N w) ^ m.
Proof.
  set (T := IZR (2 ^ Z.of_N w)). assert (TP : 0 < T) by (apply IZR_lt, Z.pow_pos_nonneg; lia).
  induction m as [|m IH]; [cbn; lra|]. cbn [matrices]. rewrite lsumR_flat.
  assert (H : lsumR (matrices w m) (fun rows => lsumR (map (fun r => r :: rows) (words w)) (fun ws => b2r (negb (fresh ws)))) <= T * lsumR (matrices w m) (fun ws => b2r (negb (fresh ws))) + (INR m + 1) * T ^ m).
  { replace (T ^ m) with (INR (length (matrices w m))) by apply matrices_length. rewrite (Rmult_comm (INR m + 1)), <- lsumR_const, <- lsumR_scale, <- lsumR_plus.
    apply lsumR_le. intros rows R. apply matrices_in in R. destruct R as [L _]. rewrite lsumR_map. unfold T. rewrite <- words_length.
    pose proof (few_equal w (0%N :: rows)) as F. cbn [length] in F. rewrite L, S_INR in F. eapply Rle_trans; [|apply Rplus_le_compat_l; exact F].
    rewrite <- lsumR_const, <- lsumR_plus. apply lsumR_le. intros r _. cbn [fresh]. destruct (fresh rows), (existsb (N.eqb r) (0%N :: rows)); cbn [andb negb b2r]; lra. }
  rewrite S_INR. cbn [pow].
  set (X := lsumR (matrices w m) (fun ws => b2r (negb (fresh ws)))) in *. set (Y := lsumR (matrices w m) (fun rows => lsumR _ _)) in *.
  apply Rle_trans with ((T * X + (INR m + 1) * T ^ m) * T); [apply Rmult_le_compat_r; lra|].
  replace ((INR m + 1) * (INR m + 1 + 1) / 2 * (T * T ^ m)) with (T * (INR m * (INR m + 1) / 2 * T ^ m) + (INR m + 1) * T ^ m * T) by field.
  apply Rmult_le_compat_l with (r := T) in IH; lra.
Qed.

(** ** rotation *)
Definition turned (w rot x : N) : N := match rotl w x rot with Ok r => r | _ => 0%N end.
Lemma turned_ok w rot x : (1 <= w <= 32)%N -> rot_defined w rot -> (x < 2 ^ w)%N -> Rotated w rot x (turned w rot x).
Proof. intros [W1 W2] D X. unfold turned. destruct (rotl_ok w x rot W1 W2 X D) as (r & -> & B & T). split; assumption. Qed.
Lemma rotated_unique w n x y z : (1 <= w)%N -> Rotated w n x y -> Rotated w n x z -> y = z.
Proof.
  intros W [Y1 Y2] [Z1 Z2]. apply N.bits_inj. intro j. destruct (N.ltb_spec j w) as [L|L]; [|rewrite (testbit_lt y w j Y1 L); symmetry; exact (testbit_lt z w j Z1 L)].
  set (b := ((j + (w - n mod w)) mod w)%N).
  assert (B : (b < w)%N) by (apply N.mod_lt; lia).
  assert (E : ((b + n) mod w)%N = j).
  { unfold b. rewrite N.add_mod_idemp_l by lia. pose proof (N.mod_lt n w ltac:(lia)). pose proof (N.div_mod n w ltac:(lia)).
    replace (j + (w - n mod w) + n)%N with (j + (1 + n / w) * w)%N by nia. rewrite N.mod_add by lia. now apply N.mod_small. }
  rewrite <- E, (Y2 b B), (Z2 b B). reflexivity.
Qed.

(** the program grows the search tree of the rotated words *)
Lemma grow_end d : forall xs t n t' y p rest, bst_grow d xs t = Some t' -> bst_add d y t' = inr p -> tree_end d t n (xs ++ y :: rest) = Some (n + length xs + 1, p)%nat.
Proof.
  induction xs as [|x xs IH]; intros t n t' y p rest G A; cbn [bst_grow app tree_end length] in *.
  - injection G as ->. rewrite A. do 2 f_equal. lia.
  - destruct (bst_add d x t) as [t1|]; [|discriminate]. rewrite (IH t1 (S n) t' y p rest G A). do 2 f_equal. lia.
Qed.
Theorem one_tree_ends w rot ws : (1 <= w <= 32)%N -> rot_defined w rot -> (forall x, In x ws -> (0 < x < 2 ^ w)%N) -> (16 <= length ws)%nat ->
  one_tree w rot ws = ends (map (turned w rot) ws).
Proof.
  intros W D B L. set (g := fun k => nth k ws 1%N).
  assert (GB : forall k, (g k < 2 ^ w)%N /\ g k <> 0%N).
  { intro k. unfold g. destruct (Nat.ltb_spec k (length ws)) as [H|H].
    - specialize (B (nth k ws 1%N) (nth_In _ _ H)). lia.
    - rewrite nth_overflow by exact H. split; [|discriminate]. apply (N.lt_le_trans _ (2 ^ 1)); [reflexivity|apply N.pow_le_mono_r; lia]. }
  destruct (tree_ok g w ltac:(lia) ltac:(lia) (fun k => proj1 (GB k)) (fun k => proj2 (GB k)) rot D 66 (repeat 0%N 32) Empty 0 0) as (xs & y & t & p & E & RX & BG & BA & P16 & L15); [reflexivity|apply rep_empty|exact I|reflexivity|lia|].
  unfold one_tree, ends. fold g. rewrite E. replace (2 * p / 2)%N with p by (rewrite N.mul_comm, N.div_mul by discriminate; reflexivity).
  assert (F : map (turned w rot) ws = xs ++ y :: skipn (S (length xs)) (map (turned w rot) ws)).
  { rewrite <- (firstn_skipn (S (length xs)) (map (turned w rot) ws)) at 1. change (y :: skipn (S (length xs)) (map (turned w rot) ws)) with ([y] ++ skipn (S (length xs)) (map (turned w rot) ws)). rewrite app_assoc. f_equal.
    apply (nth_ext _ _ 0%N 0%N); [rewrite firstn_length, map_length, app_length; cbn [length]; lia|].
    rewrite firstn_length, map_length. intros k K. rewrite TreeBins.nth_firstn' by lia.
    assert (KW : (k < length ws)%nat) by lia. rewrite (nth_indep _ 0%N (turned w rot 1)) by (rewrite map_length; exact KW). rewrite map_nth.
    specialize (RX k). rewrite app_length in RX. cbn [length] in RX. specialize (RX ltac:(lia)). cbn [Nat.add] in RX. unfold g in RX.
    eapply rotated_unique; [|apply turned_ok; try assumption|exact RX]; [lia|]. apply B. now apply nth_In. }
  rewrite F, (grow_end 4 xs Empty 0 t y p _ BG BA). do 2 f_equal. lia.
Qed.
