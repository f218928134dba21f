(** The number of bit matrices of a given rank. *)
From Verif Require Export RankLawSpec RankLemmas TallyLemmas.
From Coq Require Import Permutation.
Open Scope N_scope.

(** * Words *)
Lemma words_0 : words 0 = [0].
Proof. reflexivity. Qed.
Lemma words_succ w : words (w + 1) = words w ++ map (N.add (2 ^ w)) (words w).
Proof.
  unfold words. replace (N.to_nat (2 ^ (w + 1))) with (N.to_nat (2 ^ w) + N.to_nat (2 ^ w))%nat by (rewrite N.pow_add_r; lia).
  rewrite seq_app, map_app. f_equal. cbn [Nat.add]. set (k := N.to_nat (2 ^ w)).
  rewrite map_map. replace (seq k k) with (map (fun i => k + i)%nat (seq 0 k)).
  - rewrite map_map. apply map_ext. intro i. unfold k. lia.
  - assert (G : forall n s, map (fun i => (k + i)%nat) (seq s n) = seq (k + s) n).
    { induction n as [|n IH]; intro s; [reflexivity|]. cbn [seq map]. rewrite IH. f_equal. f_equal. lia. }
    rewrite G. f_equal. lia.
Qed.
Lemma in_words w x : In x (words w) <-> x < 2 ^ w.
Proof.
  unfold words. rewrite in_map_iff. split.
  - intros (i & <- & H). apply in_seq in H. lia.
  - intro H. exists (N.to_nat x). split; [lia|]. apply in_seq. lia.
Qed.
Lemma words_nodup w : NoDup (words w).
Proof. unfold words. apply FinFun.Injective_map_NoDup; [intros a b H; lia|apply seq_NoDup]. Qed.
Lemma words_length w : N.of_nat (length (words w)) = 2 ^ w.
Proof. unfold words. rewrite map_length, seq_length. lia. Qed.

Lemma countp_none A (f : A -> bool) l : (forall x, In x l -> f x = false) -> countp f l = 0.
Proof. induction l as [|a l IH]; intro H; cbn [countp]; [reflexivity|]. rewrite H by (left; reflexivity). rewrite IH; [reflexivity|]. intros x I. apply H. right. exact I. Qed.
Lemma countp_all A (f : A -> bool) l : (forall x, In x l -> f x = true) -> countp f l = N.of_nat (length l).
Proof. induction l as [|a l IH]; intro H; cbn [countp length]; [reflexivity|]. rewrite H by (left; reflexivity). rewrite IH; [lia|]. intros x I. apply H. right. exact I. Qed.
Lemma countp_one l s : NoDup l -> In s l -> countp (fun v => v =? s) l = 1.
Proof.
  induction l as [|a l IH]; intros D I; [destruct I|]. inversion D as [|? ? Na Nd]; subst. cbn [countp]. destruct I as [->|I].
  - rewrite N.eqb_refl, countp_none; [lia|]. intros x X. apply N.eqb_neq. congruence.
  - replace (a =? s) with false by (symmetry; apply N.eqb_neq; congruence). rewrite IH by assumption. lia.
Qed.
(** each residue occurs equally often *)
Lemma words_residue n s : s < 2 ^ n -> forall d, countp (fun v => v mod 2 ^ n =? s) (words (n + N.of_nat d)) = 2 ^ N.of_nat d.
Proof.
  intro S. induction d as [|d IH].
  - replace (n + N.of_nat 0) with n by lia. change (2 ^ N.of_nat 0) with 1.
    rewrite (countp_ext _ _ (fun v => v =? s)); [apply countp_one; [apply words_nodup|now apply in_words]|].
    intros x X. apply in_words in X. now rewrite N.mod_small.
  - replace (n + N.of_nat (Datatypes.S d)) with (n + N.of_nat d + 1) by lia. rewrite words_succ, countp_app, countp_map.
    rewrite (countp_ext _ (fun x => (2 ^ (n + N.of_nat d) + x) mod 2 ^ n =? s) (fun v => v mod 2 ^ n =? s)).
    + rewrite IH. replace (N.of_nat (Datatypes.S d)) with (N.of_nat d + 1) by lia. rewrite N.pow_add_r. lia.
    + intros x _. rewrite N.pow_add_r, N.add_comm, N.mul_comm, N.mod_add; [reflexivity|]. apply N.pow_nonzero. lia.
Qed.
Lemma countp_split A (f g : A -> bool) l : (forall x, In x l -> f x = true -> g x = false) -> countp (fun x => f x || g x) l = countp f l + countp g l.
Proof.
  induction l as [|a l IH]; intro H; cbn [countp]; [reflexivity|]. rewrite IH by (intros x I; apply H; right; exact I).
  specialize (H a (or_introl eq_refl)). destruct (f a), (g a); cbn [orb]; lia.
Qed.
Lemma countp_neg A (f : A -> bool) l : countp (fun x => negb (f x)) l = N.of_nat (length l) - countp f l.
Proof. induction l as [|a l IH]; cbn [countp length]; [reflexivity|]. rewrite IH. pose proof (countp_le _ f l). destruct (f a); cbn [negb]; lia. Qed.

Definition mem (S : list N) (x : N) : bool := if in_dec N.eq_dec x S then true else false.
Lemma mem_in S x : mem S x = true <-> In x S.
Proof. unfold mem. destruct (in_dec N.eq_dec x S); split; auto; discriminate. Qed.
Lemma words_mem n d S : NoDup S -> (forall s, In s S -> s < 2 ^ n) ->
  countp (fun v => mem S (v mod 2 ^ n)) (words (n + N.of_nat d)) = N.of_nat (length S) * 2 ^ N.of_nat d.
Proof.
  induction S as [|s S IH]; intros D B.
  - rewrite countp_none; [reflexivity|]. intros x _. reflexivity.
  - inversion D as [|? ? Ns Nd]; subst.
    rewrite (countp_ext _ _ (fun v => (v mod 2 ^ n =? s) || mem S (v mod 2 ^ n))).
    + rewrite countp_split.
      * rewrite words_residue by (apply B; left; reflexivity). rewrite IH; [cbn [length]; lia|exact Nd|intros x X; apply B; right; exact X].
      * intros x _ E. apply N.eqb_eq in E. rewrite E. destruct (mem S s) eqn:M; [|reflexivity]. apply mem_in in M. contradiction.
    + intros x _. apply Bool.eq_iff_eq_true. rewrite Bool.orb_true_iff, !mem_in, N.eqb_eq. cbn [In]. intuition congruence.
Qed.

(** * One more row *)
Definition low (n : N) (rows : list N) : list N := map (fun r => r mod 2 ^ n) rows.
Lemma span_in v rows : In v (subset_sums rows) -> span_size (v :: rows) = span_size rows.
Proof. intro H. apply span_size_eq; intros r R; [destruct R as [<-|R]; [exact H|now apply in_sums_row]|apply in_sums_row; right; exact R]. Qed.
Lemma span_out v rows : ~ In v (subset_sums rows) -> span_size (v :: rows) = (2 * span_size rows)%nat.
Proof.
  intro H. unfold span_size. cbn [subset_sums]. rewrite nodup_app_disjoint.
  - rewrite nodup_map_inj; [lia|]. intros x y E.
    assert (E2 : N.lxor v (N.lxor v x) = N.lxor v (N.lxor v y)) by (rewrite E; auto).
    rewrite <- !N.lxor_assoc, N.lxor_nilpotent, !N.lxor_0_l in E2. auto.
  - intros x X X'. apply in_map_iff in X'. destruct X' as (y & <- & Y). apply H.
    replace v with (N.lxor (N.lxor v y) y) by (rewrite N.lxor_assoc, N.lxor_nilpotent, N.lxor_0_r; auto). now apply in_sums_xor.
Qed.
Lemma rank_exists n rows : exists q, (q <= length rows)%nat /\ is_rank rows n q.
Proof.
  unfold is_rank. induction rows as [|v rows (q & Q & H)]; [exists 0%nat; split; [lia|reflexivity]|]. cbn [map length].
  destruct (in_dec N.eq_dec (v mod 2 ^ n) (subset_sums (low n rows))) as [I|I].
  - exists q. split; [lia|]. rewrite <- H. exact (span_in _ _ I).
  - exists (S q). split; [lia|]. rewrite Nat.pow_succ_r', <- H. exact (span_out _ _ I).
Qed.
Definition rank_is (n : N) (r : nat) (rows : list N) : bool := Nat.eqb (span_size (low n rows)) (2 ^ r).
Lemma rank_is_iff n r rows : rank_is n r rows = true <-> is_rank rows n r.
Proof. unfold rank_is, is_rank. apply Nat.eqb_eq. Qed.
Lemma pow_nat2 a b : (2 ^ a = 2 ^ b)%nat -> a = b.
Proof. intro H. apply Nat.pow_inj_r in H; lia. Qed.

Lemma span_low n rows : forall x, In x (subset_sums (low n rows)) -> x < 2 ^ n.
Proof.
  apply (sums_least (low n rows) (fun x => x < 2 ^ n)).
  - apply N.neq_0_lt_0, N.pow_nonzero. lia.
  - intros x y X Y. rewrite <- (N.mod_small x (2 ^ n) X), <- (N.mod_small y (2 ^ n) Y), <- lxor_mod. apply N.mod_lt, N.pow_nonzero. lia.
  - intros r R. unfold low in R. apply in_map_iff in R. destruct R as (a & <- & _). apply N.mod_lt, N.pow_nonzero. lia.
Qed.
Lemma of_nat_pow2 q : N.of_nat (2 ^ q) = 2 ^ N.of_nat q.
Proof. induction q as [|q IH]; [reflexivity|]. rewrite Nat.pow_succ_r', Nat2N.inj_mul, IH. replace (N.of_nat (S q)) with (N.of_nat q + 1) by lia. rewrite N.pow_add_r. lia. Qed.
Lemma one_row n d rows q r : is_rank rows n q ->
  countp (fun v => rank_is n r (v :: rows)) (words (n + N.of_nat d)) =
  (if Nat.eqb q r then 2 ^ N.of_nat q else if Nat.eqb (S q) r then 2 ^ n - 2 ^ N.of_nat q else 0) * 2 ^ N.of_nat d.
Proof.
  intro H. unfold is_rank in H. fold (low n rows) in H.
  set (S := nodup N.eq_dec (subset_sums (low n rows))).
  assert (M : countp (fun v => mem S (v mod 2 ^ n)) (words (n + N.of_nat d)) = 2 ^ N.of_nat q * 2 ^ N.of_nat d).
  { rewrite words_mem; [|apply NoDup_nodup|intros s I; apply nodup_In in I; now apply (span_low n rows)].
    f_equal. change (length S) with (span_size (low n rows)). rewrite H. apply of_nat_pow2. }
  assert (A : forall v, rank_is n r (v :: rows) = if mem S (v mod 2 ^ n) then Nat.eqb q r else Nat.eqb (Datatypes.S q) r).
  { intro v. apply Bool.eq_iff_eq_true. rewrite rank_is_iff. unfold is_rank. cbn [map]. fold (low n rows).
    destruct (mem S (v mod 2 ^ n)) eqn:E.
    - apply mem_in, nodup_In in E. rewrite (span_in _ _ E), H, Nat.eqb_eq. split; [apply pow_nat2|congruence].
    - assert (I : ~ In (v mod 2 ^ n) (subset_sums (low n rows))) by (intro I; apply (nodup_In N.eq_dec) in I; apply mem_in in I; fold S in I; congruence).
      rewrite (span_out _ _ I), H, Nat.eqb_eq. change (2 * 2 ^ q)%nat with (2 ^ Datatypes.S q)%nat. split; [apply pow_nat2|congruence]. }
  rewrite (countp_ext _ _ (fun v => if mem S (v mod 2 ^ n) then Nat.eqb q r else Nat.eqb (Datatypes.S q) r)) by (intros v _; apply A).
  destruct (Nat.eqb_spec q r) as [->|Q].
  - destruct (Nat.eqb_spec (Datatypes.S r) r); [lia|]. rewrite <- M. apply countp_ext. intros v _. now destruct (mem S (v mod 2 ^ n)).
  - destruct (Nat.eqb_spec (Datatypes.S q) r) as [Q1|Q1].
    + rewrite (countp_ext _ _ (fun v => negb (mem S (v mod 2 ^ n)))) by (intros v _; now destruct (mem S (v mod 2 ^ n))).
      rewrite countp_neg, M, words_length, N.pow_add_r, N.mul_sub_distr_r. reflexivity.
    + rewrite countp_none; [lia|]. intros v _. now destruct (mem S (v mod 2 ^ n)).
Qed.

Lemma countp_flat_map A B (p : B -> bool) (f : A -> list B) l (g : A -> N) :
  (forall x, In x l -> countp p (f x) = g x) -> countp p (flat_map f l) = fold_right (fun x s => g x + s) 0 l.
Proof.
  induction l as [|a l IH]; intro H; [reflexivity|]. cbn [flat_map fold_right]. rewrite countp_app, H by (left; reflexivity).
  rewrite IH; [reflexivity|]. intros x X. apply H. right. exact X.
Qed.
Lemma sum_cases A (l : list A) (p q : A -> bool) a b : (forall x, p x = true -> q x = false) ->
  fold_right (fun x s => (if p x then a else if q x then b else 0) + s) 0 l = a * countp p l + b * countp q l.
Proof.
  intro H. induction l as [|x l IH]; cbn [fold_right countp]; [lia|]. rewrite IH. specialize (H x).
  destruct (p x); [rewrite H by reflexivity; lia|destruct (q x); lia].
Qed.
Lemma rank_step n d m r :
  number (n + N.of_nat d) (S m) (rank_is n r) =
  2 ^ N.of_nat d * (2 ^ N.of_nat r * number (n + N.of_nat d) m (rank_is n r) +
    match r with O => 0 | S q => (2 ^ n - 2 ^ N.of_nat q) * number (n + N.of_nat d) m (rank_is n q) end).
Proof.
  unfold number. cbn [matrices].
  set (prev := fun rows => match r with O => false | S q => rank_is n q rows end).
  rewrite (countp_flat_map _ _ _ _ _ (fun rows => if rank_is n r rows then 2 ^ N.of_nat r * 2 ^ N.of_nat d
    else if prev rows then (2 ^ n - 2 ^ N.of_nat (pred r)) * 2 ^ N.of_nat d else 0)).
  - rewrite sum_cases.
    + replace (countp prev (matrices (n + N.of_nat d) m)) with (match r with O => 0 | S q => countp (rank_is n q) (matrices (n + N.of_nat d) m) end).
      * destruct r; cbn [pred]; lia.
      * unfold prev. destruct r; [|reflexivity]. symmetry. apply countp_none. reflexivity.
    + unfold prev. intros rows H. apply rank_is_iff in H. destruct r as [|q]; [reflexivity|].
      destruct (rank_is n q rows) eqn:E; [|reflexivity]. apply rank_is_iff in E. pose proof (is_rank_unique _ _ _ _ H E). lia.
  - intros rows _. rewrite countp_map. destruct (rank_exists n rows) as (q & _ & Q). rewrite (one_row n d rows q r Q).
    assert (R : rank_is n r rows = Nat.eqb q r).
    { apply Bool.eq_iff_eq_true. rewrite rank_is_iff, Nat.eqb_eq. split; [intro R; exact (is_rank_unique _ _ _ _ Q R)|congruence]. }
    assert (P : prev rows = Nat.eqb (S q) r).
    { unfold prev. destruct r as [|p]; [reflexivity|]. apply Bool.eq_iff_eq_true. rewrite rank_is_iff. cbn [Nat.eqb]. rewrite Nat.eqb_eq. split; [intro R'; exact (is_rank_unique _ _ _ _ Q R')|congruence]. }
    rewrite R, P. destruct (Nat.eqb_spec q r) as [->|_]; [reflexivity|]. destruct (Nat.eqb_spec (S q) r) as [<-|_]; [reflexivity|lia].
Qed.
