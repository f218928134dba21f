(** Patterns of rises and falls along the cycle of the positions. *)
From Coq Require Import Lia Lra Bool.
From Verif Require Export RunsChains OpermReal.
Open Scope nat_scope.

(** the step from position t to the next one, cyclically *)
Definition rises (n : nat) (pi : list nat) (t : nat) : bool := before pi (t mod n) (S t mod n).
Definition agrees (o : option bool) (b : bool) : bool := match o with None => true | Some c => Bool.eqb b c end.
Fixpoint along (e : nat -> bool) (s : nat) (l : pattern) : bool :=
  match l with [] => true | o :: l => agrees o (e s) && along e (S s) l end.

Lemma along_fits n pi : forall l s, along (rises n pi) s l = fits pi (s mod n) (map (fun i => i mod n) (seq (S s) (length l))) l.
Proof.
  induction l as [|o l IH]; intro s; [reflexivity|]. cbn [along length seq map fits]. rewrite IH. unfold rises. destruct o; reflexivity.
Qed.
Lemma mod_inj n s i j : s <= i < s + n -> s <= j < s + n -> i mod n = j mod n -> i = j.
Proof.
  intros Hi Hj E. pose proof (Nat.div_mod i n ltac:(lia)) as A. pose proof (Nat.div_mod j n ltac:(lia)) as B. rewrite E in A.
  set (q1 := i / n) in *. set (q2 := j / n) in *. set (r := j mod n) in *. clearbody q1 q2 r.
  destruct (lt_eq_lt_dec q1 q2) as [[K|K]|K]; [assert (n * q1 + n <= n * q2) by nia; lia|now subst|assert (n * q2 + n <= n * q1) by nia; lia].
Qed.
Lemma arc_nodup n : forall m s k, s <= k -> k + m <= s + n -> NoDup (map (fun i => i mod n) (seq k m)).
Proof.
  induction m as [|m IH]; intros s k A B; [constructor|]. cbn [seq map]. constructor; [|apply (IH s); lia].
  intro K. apply in_map_iff in K. destruct K as (j & E & J). apply in_seq in J. apply (mod_inj n s) in E; lia.
Qed.

Lemma arc_count n all s l : lists_orderings n all -> length l < n ->
  (lsum all (fun pi => b2z (along (rises n pi) s l)) * Z.of_nat (fact (S (length l))) = Z.of_nat (fact n) * pcount 1 l)%Z.
Proof.
  intros (Nd & All) H. set (arc := map (fun i => i mod n) (seq s (S (length l)))).
  assert (Na : NoDup arc) by (apply (arc_nodup n (S (length l)) s s); lia).
  set (outs := filter (fun x => negb (mem arc x)) (seq 0 n)).
  assert (IO : forall x, In x outs <-> x < n /\ ~ In x arc) by (intro x; unfold outs; rewrite filter_In, in_seq, negb_true_iff, mem_out; intuition lia).
  assert (IA : forall x, In x arc -> x < n) by (intros x X; apply in_map_iff in X; destruct X as (i & <- & _); apply Nat.mod_upper_bound; lia).
  assert (N : NoDup (arc ++ outs)).
  { apply nodup_app; [exact Na|apply NoDup_filter, seq_NoDup|]. intros x X Y. apply IO in Y. tauto. }
  assert (P : Permutation (arc ++ outs) (seq 0 n)).
  { apply NoDup_Permutation; [exact N|apply seq_NoDup|]. intro x. rewrite in_app_iff, IO, in_seq. split; [intros [X|X]; [specialize (IA x X)|]; lia|].
    intro X. destruct (mem arc x) eqn:E; [apply mem_in in E; tauto|apply mem_out in E; right; split; [lia|exact E]]. }
  destruct (pattern_count l [] (s mod n) (map (fun i => i mod n) (seq (S s) (length l))) outs) as (M & EM & FM); [now rewrite map_length, seq_length|exact N|].
  cbn [app length] in EM, FM.
  assert (L : lsum all (fun pi => b2z (along (rises n pi) s l)) = Z.of_nat M).
  { apply (lsum_exactly all (ordering n) (fun pi => along (rises n pi) s l = true)); [exact Nd|exact All|reflexivity|].
    revert EM. apply exactly_iff. intro pi. rewrite along_fits. unfold ordering.
    change (s mod n :: map (fun i => i mod n) (seq (S s) (length l)) ++ outs) with (arc ++ outs). rewrite P. split; [tauto|].
    intros (O & F). split; [exact O|]. split; [|exact F]. apply inorder_one; [now apply (ordering_nodup n)|].
    apply (Permutation_in _ (Permutation_sym O)). apply in_seq. pose proof (Nat.mod_upper_bound s n ltac:(lia)). lia. }
  rewrite L. change (S (length l)) with (1 + length l). rewrite FM. do 3 f_equal.
  apply Permutation_length in P. rewrite app_length, seq_length in P. unfold arc in P. rewrite map_length, seq_length in P. lia.
Qed.

(** ** the probability of a pattern *)
Open Scope R_scope.
Definition pr (k : nat) (l : pattern) : R := IZR (pcount k l) / INR (fact (k + length l)).
Definition prob (l : pattern) : R := pr 1 l.
Definition b2r (b : bool) : R := if b then 1 else 0.
Lemma b2r_IZR b : b2r b = IZR (b2z b).
Proof. destruct b; reflexivity. Qed.
Lemma b2r_and a b : b2r (a && b) = b2r a * b2r b.
Proof. destruct a, b; cbn; lra. Qed.
Lemma fact_pos n : 0 < INR (fact n).
Proof. apply lt_0_INR, lt_O_fact. Qed.

Lemma average_along n all s l : lists_orderings n all -> (length l < n)%nat -> average all (fun pi => b2r (along (rises n pi) s l)) = prob l.
Proof.
  intros H L. pose proof (arc_count n all s l H L) as A. pose proof (lists_length n all H) as Pos. unfold average.
  rewrite (lsumR_ext all _ (fun pi => IZR (b2z (along (rises n pi) s l)))) by (intros; apply b2r_IZR). rewrite lsumR_IZR.
  apply (f_equal IZR) in A. rewrite !mult_IZR, <- !INR_IZR_INZ in A. destruct H as (Nd & All). rewrite (all_length n all Nd All) in *.
  unfold prob, pr. change (1 + length l)%nat with (S (length l)). pose proof (fact_pos (S (length l))). 
  apply (Rmult_eq_reg_r (INR (fact n) * INR (fact (S (length l))))); [|nra]. field_simplify; [|lra|lra]. lra.
Qed.

Lemma pr_nil k : pr k [] = / INR (fact k).
Proof. unfold pr. cbn [pcount length]. rewrite Nat.add_0_r. unfold Rdiv. ring. Qed.
Lemma pr_free k l : pr k (None :: l) = pr k [] * prob l.
Proof.
  rewrite pr_nil. unfold prob, pr. cbn [pcount length]. change (1 + length l)%nat with (S (length l)).
  pose proof (binom_fact (k + S (length l)) k ltac:(lia)) as B. replace (k + S (length l) - k)%nat with (S (length l)) in B by lia.
  apply (f_equal INR) in B. rewrite !mult_INR in B. rewrite mult_IZR, <- INR_IZR_INZ.
  pose proof (fact_pos k). pose proof (fact_pos (S (length l))). pose proof (fact_pos (k + S (length l))).
  rewrite <- B. field. split; [lra|]. split; [lra|]. intro Z. rewrite Z in B. lra.
Qed.
Lemma pr_up k l : pr k (Some true :: l) = pr (S k) l.
Proof. unfold pr. cbn [pcount length]. now rewrite Nat.add_succ_r. Qed.
Lemma pr_down k l : pr k (Some false :: l) = pr k (None :: l) - pr (S k) l.
Proof. unfold pr. cbn [pcount length]. rewrite Nat.add_succ_r. cbn [Nat.add]. rewrite minus_IZR. field. apply Rgt_not_eq, fact_pos. Qed.
Lemma pr_app : forall l1 k l2, pr k (l1 ++ None :: l2) = pr k l1 * prob l2.
Proof.
  induction l1 as [|[[|]|] l1 IH]; intros k l2; cbn [app].
  - apply pr_free.
  - rewrite !pr_up. apply IH.
  - rewrite !pr_down, !pr_free. unfold prob. rewrite !IH. unfold prob. ring.
  - rewrite !pr_free. unfold prob. rewrite IH. unfold prob. ring.
Qed.
Lemma prob_none l : prob (None :: l) = prob l.
Proof. unfold prob at 1. rewrite pr_free, pr_nil. cbn. lra. Qed.
Lemma prob_nones g l : prob (repeat None g ++ l) = prob l.
Proof. induction g as [|g IH]; [reflexivity|]. cbn [repeat app]. now rewrite prob_none. Qed.
Lemma prob_apart l1 g l2 : prob (l1 ++ repeat None (S g) ++ l2) = prob l1 * prob l2.
Proof. cbn [repeat app]. unfold prob at 1. rewrite pr_app. now rewrite prob_nones. Qed.

(** ** two patterns at once *)
Fixpoint meet (l m : pattern) : option pattern :=
  match l, m with
  | [], m => Some m
  | l, [] => Some l
  | o :: l, p :: m =>
    match meet l m with
    | None => None
    | Some r => match o, p with
                | None, q | q, None => Some (q :: r)
                | Some a, Some b => if Bool.eqb a b then Some (Some a :: r) else None
                end
    end
  end.
Definition pair (d : nat) (l m : pattern) : R := match meet l (repeat None d ++ m) with Some r => prob r | None => 0 end.

Lemma along_meet e : forall l m s, match meet l m with Some r => along e s r | None => false end = along e s l && along e s m.
Proof.
  induction l as [|o l IH]; intros [|p m] s; cbn [meet along]; try reflexivity; [now rewrite andb_true_r|].
  specialize (IH m (S s)). destruct (meet l m) as [r|].
  - destruct o as [a|], p as [b|]; cbn [agrees along].
    + destruct (Bool.eqb_spec a b) as [->|N]; cbn [along agrees]; [rewrite IH; destruct (Bool.eqb (e s) b), (along e (S s) l), (along e (S s) m); reflexivity|].
      destruct (Bool.eqb_spec (e s) a), (Bool.eqb_spec (e s) b); cbn [andb]; rewrite ?andb_false_r; try reflexivity. congruence.
    + rewrite IH. destruct (Bool.eqb (e s) a), (along e (S s) l), (along e (S s) m); reflexivity.
    + rewrite IH. destruct (Bool.eqb (e s) b), (along e (S s) l), (along e (S s) m); reflexivity.
    + rewrite IH. destruct (along e (S s) l), (along e (S s) m); reflexivity.
  - destruct (agrees o (e s)), (agrees p (e s)), (along e (S s) l), (along e (S s) m); try reflexivity; discriminate.
Qed.
Lemma along_shift e d : forall m s, along e s (repeat None d ++ m) = along e (s + d) m.
Proof. induction d as [|d IH]; intros m s; [now rewrite Nat.add_0_r|]. cbn [repeat app along agrees andb]. rewrite IH. f_equal. lia. Qed.
Lemma meet_length : forall l m r, meet l m = Some r -> length r = Nat.max (length l) (length m).
Proof.
  induction l as [|o l IH]; intros [|p m] r H; cbn [meet] in H; try (injection H as <-; cbn; lia).
  destruct (meet l m) as [q|] eqn:E; [|discriminate]. specialize (IH m q E). cbn [length].
  destruct o as [a|], p as [b|]; [destruct (Bool.eqb a b); [|discriminate]| | |]; injection H as <-; cbn [length]; lia.
Qed.
Lemma average_zero {A} (all : list A) : average all (fun _ => 0) = 0.
Proof. unfold average. assert (E : lsumR all (fun _ => 0) = 0) by (induction all as [|x l IH]; cbn; lra). rewrite E. unfold Rdiv. ring. Qed.
Lemma average_ext {A} (all : list A) f g : (forall x, In x all -> f x = g x) -> average all f = average all g.
Proof. intro H. unfold average. now rewrite (lsumR_ext all f g H). Qed.
Lemma average_pair n all s d l m : lists_orderings n all -> (length l < n)%nat -> (d + length m < n)%nat ->
  average all (fun pi => b2r (along (rises n pi) s l) * b2r (along (rises n pi) (s + d) m)) = pair d l m.
Proof.
  intros H L M. unfold pair.
  rewrite (average_ext all _ (fun pi => b2r (match meet l (repeat None d ++ m) with Some r => along (rises n pi) s r | None => false end))).
  2:{ intros pi _. now rewrite along_meet, b2r_and, along_shift. }
  destruct (meet l (repeat None d ++ m)) as [r|] eqn:E; [|apply average_zero].
  apply average_along; [exact H|]. apply meet_length in E. rewrite app_length, repeat_length in E. lia.
Qed.
Lemma meet_apart : forall l g m, meet l (repeat None (length l + g) ++ m) = Some (l ++ repeat None g ++ m).
Proof.
  induction l as [|o l IH]; intros g m; [destruct g; [destruct m|]; reflexivity|]. cbn [length Nat.add repeat app meet]. rewrite IH. destruct o; reflexivity.
Qed.
Lemma pair_apart d l m : (length l < d)%nat -> pair d l m = prob l * prob m.
Proof.
  intro H. unfold pair. replace d with (length l + S (d - S (length l)))%nat by lia. rewrite meet_apart. apply prob_apart.
Qed.
Lemma along_ext e f : forall l s, (forall i, (s <= i < s + length l)%nat -> e i = f i) -> along e s l = along f s l.
Proof. induction l as [|o l IH]; intros s H; [reflexivity|]. cbn [along]. rewrite (H s) by (cbn; lia). f_equal. apply IH. intros i Hi. apply H. cbn [length]. lia. Qed.
Lemma rises_period n pi t : rises n pi (t + n) = rises n pi t.
Proof. unfold rises. destruct (Nat.eq_dec n 0) as [->|N]; [now rewrite Nat.add_0_r|]. replace (S (t + n)) with (S t + 1 * n)%nat by lia. replace (t + n)%nat with (t + 1 * n)%nat by lia. now rewrite !Nat.mod_add. Qed.
Lemma along_period n pi s l : along (rises n pi) (s + n) l = along (rises n pi) s l.
Proof. revert s. induction l as [|o l IH]; intro s; [reflexivity|]. cbn [along]. rewrite rises_period. f_equal. apply (IH (S s)). Qed.

(** one pattern against all shifts of another, both of six steps *)
Definition near (l m : pattern) : R := rsum 7 (fun d => pair d l m) + rsum 6 (fun d => pair (S d) m l).
Lemma average_plus {A} (all : list A) f g : average all (fun x => f x + g x) = average all f + average all g.
Proof. unfold average. rewrite lsumR_plus. unfold Rdiv. ring. Qed.
Lemma average_scale {A} (all : list A) c f : average all (fun x => c * f x) = c * average all f.
Proof. unfold average. rewrite lsumR_scale. unfold Rdiv. ring. Qed.
Lemma average_rsum {A} (all : list A) n f : average all (fun x => rsum n (f x)) = rsum n (fun k => average all (fun x => f x k)).
Proof. induction n as [|n IH]; [apply average_zero|]. cbn [rsum]. now rewrite average_plus, IH. Qed.
Lemma rsum_split a b f : rsum (a + b) f = rsum a f + rsum b (fun k => f (a + k)%nat).
Proof. induction b as [|b IH]; [rewrite Nat.add_0_r; cbn; lra|]. rewrite Nat.add_succ_r. cbn [rsum]. rewrite IH. lra. Qed.
Lemma rsum_turn n f a : (forall k, f (k + n)%nat = f k) -> rsum n (fun k => f (a + k)%nat) = rsum n f.
Proof.
  intro H. induction a as [|a IH]; [reflexivity|]. rewrite <- IH. destruct n as [|n]; [reflexivity|].
  change (S n) with (1 + n)%nat at 2. rewrite (rsum_split 1 n (fun k => f (a + k)%nat)). cbn [rsum].
  rewrite (rsum_ext n (fun k => f (S a + k)%nat) (fun k => f (a + (1 + k))%nat)) by (intros; f_equal; lia).
  replace (S a + n)%nat with (a + 0 + S n)%nat by lia. rewrite H. ring.
Qed.
Lemma average_near n all c u l m : lists_orderings n all -> (13 <= n)%nat -> length l = 6%nat -> length m = 6%nat ->
  rsum n (fun v => average all (fun pi => b2r (along (rises n pi) (c + u) l) * b2r (along (rises n pi) (c + v) m))) = near l m + (INR n - 13) * (prob l * prob m).
Proof.
  intros H Hn Ll Lm. set (f := fun v => average all (fun pi => b2r (along (rises n pi) (c + u) l) * b2r (along (rises n pi) (c + v) m))).
  change (rsum n f = near l m + (INR n - 13) * (prob l * prob m)).
  rewrite <- (rsum_turn n f u) by (intro k; unfold f; apply average_ext; intros pi _; replace (c + (k + n))%nat with (c + k + n)%nat by lia; now rewrite along_period).
  replace n with (7 + ((n - 13) + 6))%nat at 1 by lia. rewrite rsum_split, rsum_split.
  rewrite (rsum_ext 7 _ (fun d => pair d l m)).
  2:{ intros d Hd. unfold f. rewrite <- (average_pair n all (c + u) d l m H) by lia. apply average_ext. intros pi _. now rewrite Nat.add_assoc. }
  rewrite (rsum_ext (n - 13) _ (fun _ => prob l * prob m)).
  2:{ intros k Hk. unfold f. rewrite <- (pair_apart (7 + k) l m) by lia. rewrite <- (average_pair n all (c + u) (7 + k) l m H) by lia. apply average_ext. intros pi _. now rewrite Nat.add_assoc. }
  rewrite (rsum_ext 6 _ (fun k => pair (6 - k) m l)).
  2:{ intros k Hk. unfold f. rewrite <- (average_pair n all (c + u + (n - 6 + k)) (6 - k) m l H) by lia. apply average_ext. intros pi _.
      replace (c + u + (n - 6 + k) + (6 - k))%nat with (c + u + n)%nat by lia. rewrite along_period. rewrite Rmult_comm. do 3 f_equal. lia. }
  rewrite rsum_const, minus_INR by exact Hn. unfold near. replace (INR 13) with 13 by (cbn; lra).
  assert (E : rsum 6 (fun k => pair (6 - k) m l) = rsum 6 (fun d => pair (S d) m l)) by (cbn [rsum Nat.sub]; ring). rewrite E. ring.
Qed.
