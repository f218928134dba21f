(** Proofs about binary_rank. *)
From Verif Require Export RankModel RankSpec BaseLemmas.
From Coq Require Import Permutation.
Open Scope N_scope.

(** * Spans *)
Lemma in_sums_0 rows : In 0 (subset_sums rows).
Proof. induction rows; cbn; [auto|]. apply in_or_app. auto. Qed.
Lemma in_sums_cons x r rows : In x (subset_sums (r :: rows)) <->
  In x (subset_sums rows) \/ In (N.lxor r x) (subset_sums rows).
Proof.
  cbn [subset_sums]. rewrite in_app_iff, in_map_iff. split; intros [H|H]; auto.
  - destruct H as (y & <- & H). right. rewrite <- N.lxor_assoc, N.lxor_nilpotent, N.lxor_0_l. auto.
  - right. exists (N.lxor r x). split; auto. rewrite <- N.lxor_assoc, N.lxor_nilpotent, N.lxor_0_l. auto.
Qed.
Lemma in_sums_xor rows : forall x y, In x (subset_sums rows) -> In y (subset_sums rows) ->
  In (N.lxor x y) (subset_sums rows).
Proof.
  induction rows as [|r rows IH]; intros x y.
  - cbn. intros [<-|[]] [<-|[]]. auto.
  - rewrite !in_sums_cons. intros [Hx|Hx] [Hy|Hy].
    + left. auto.
    + right. replace (N.lxor r (N.lxor x y)) with (N.lxor x (N.lxor r y)); auto.
      rewrite <- !N.lxor_assoc, (N.lxor_comm x r). auto.
    + right. rewrite <- N.lxor_assoc. auto.
    + left. replace (N.lxor x y) with (N.lxor (N.lxor r x) (N.lxor r y)); auto.
      rewrite (N.lxor_comm r x), N.lxor_assoc, <- (N.lxor_assoc r r y), N.lxor_nilpotent, N.lxor_0_l. auto.
Qed.
Lemma in_sums_row r rows : In r rows -> In r (subset_sums rows).
Proof.
  induction rows as [|a rows IH]; [intros []|]. intros [->|H]; rewrite in_sums_cons.
  - right. rewrite N.lxor_nilpotent. apply in_sums_0.
  - auto.
Qed.
(** The span is the smallest set with 0 and the rows closed under xor. *)
Lemma sums_least rows (P : N -> Prop) : P 0 -> (forall x y, P x -> P y -> P (N.lxor x y)) ->
  (forall r, In r rows -> P r) -> forall x, In x (subset_sums rows) -> P x.
Proof.
  intros H0 Hx. induction rows as [|r rows IH]; intros Hr x.
  - cbn. intros [<-|[]]. auto.
  - rewrite in_sums_cons. intros [H|H].
    + apply IH; auto. intros; apply Hr; right; auto.
    + replace x with (N.lxor r (N.lxor r x))
        by (rewrite <- N.lxor_assoc, N.lxor_nilpotent, N.lxor_0_l; auto).
      apply Hx; [apply Hr; left; auto|]. apply IH; auto. intros; apply Hr; right; auto.
Qed.
Lemma sums_incl rows rows' : (forall r, In r rows -> In r (subset_sums rows')) ->
  incl (subset_sums rows) (subset_sums rows').
Proof.
  intros H x Hx. apply (sums_least rows (fun x => In x (subset_sums rows'))); auto.
  - apply in_sums_0.
  - apply in_sums_xor.
Qed.
Lemma nodup_length_eq (l l' : list N) : incl l l' -> incl l' l ->
  length (nodup N.eq_dec l) = length (nodup N.eq_dec l').
Proof.
  intros H1 H2. apply Permutation_length. apply NoDup_Permutation; try apply NoDup_nodup.
  intro x. rewrite !nodup_In. split; auto.
Qed.
Lemma span_size_eq rows rows' :
  (forall r, In r rows -> In r (subset_sums rows')) ->
  (forall r, In r rows' -> In r (subset_sums rows)) -> span_size rows = span_size rows'.
Proof. intros. apply nodup_length_eq; apply sums_incl; auto. Qed.
Lemma span_size_perm rows rows' : Permutation rows rows' -> span_size rows = span_size rows'.
Proof.
  intros H. apply span_size_eq; intros r Hr; apply in_sums_row.
  - eapply Permutation_in; eauto.
  - eapply Permutation_in; [apply Permutation_sym|]; eauto.
Qed.
(** adding the pivot to other rows does not change the span *)
Lemma span_size_elim p (f : N -> bool) rows :
  span_size (p :: map (fun r => if f r then N.lxor r p else r) rows) = span_size (p :: rows).
Proof.
  apply span_size_eq; intros r [<-|Hr]; try (apply in_sums_row; left; reflexivity).
  - apply in_map_iff in Hr. destruct Hr as (a & <- & Ha). destruct (f a).
    + apply in_sums_xor; apply in_sums_row; [right; auto|left; auto].
    + apply in_sums_row. right; auto.
  - set (rows' := p :: map _ rows).
    assert (H : In (if f r then N.lxor r p else r) (subset_sums rows')).
    { apply in_sums_row. right. apply in_map_iff. exists r; auto. }
    destruct (f r); auto. replace r with (N.lxor (N.lxor r p) p)
      by (rewrite N.lxor_assoc, N.lxor_nilpotent, N.lxor_0_r; auto).
    apply in_sums_xor; auto. apply in_sums_row. left. auto.
Qed.
Lemma nodup_app_disjoint (l l' : list N) : (forall x, In x l -> ~ In x l') ->
  length (nodup N.eq_dec (l ++ l')) = (length (nodup N.eq_dec l) + length (nodup N.eq_dec l'))%nat.
Proof.
  induction l as [|a l IH]; intros H; cbn [app nodup]; auto.
  destruct (in_dec N.eq_dec a (l ++ l')) as [i|n]; destruct (in_dec N.eq_dec a l) as [i'|n'].
  - apply IH. intros; apply H; right; auto.
  - exfalso. apply in_app_iff in i. destruct i; [auto|]. apply (H a); auto. left; auto.
  - exfalso. apply n. apply in_app_iff. auto.
  - cbn [length]. rewrite IH; auto. intros; apply H; right; auto.
Qed.
Lemma nodup_map_inj (f : N -> N) l : (forall x y, f x = f y -> x = y) ->
  length (nodup N.eq_dec (map f l)) = length (nodup N.eq_dec l).
Proof.
  intros Hf. induction l as [|a l IH]; cbn [map nodup]; auto.
  destruct (in_dec N.eq_dec (f a) (map f l)) as [i|n]; destruct (in_dec N.eq_dec a l) as [i'|n']; auto.
  - exfalso. apply in_map_iff in i. destruct i as (b & E & Hb). apply Hf in E. subst. auto.
  - exfalso. apply n. apply in_map. auto.
  - cbn. auto.
Qed.
(** a pivot with a bit no other row has doubles the span *)
Lemma span_size_pivot p rows j : N.testbit p j = true -> (forall r, In r rows -> N.testbit r j = false) ->
  span_size (p :: rows) = (2 * span_size rows)%nat.
Proof.
  intros Hp Hr. unfold span_size. cbn [subset_sums]. rewrite nodup_app_disjoint.
  - rewrite nodup_map_inj; [lia|]. intros x y E.
    assert (E2 : N.lxor p (N.lxor p x) = N.lxor p (N.lxor p y)) by (rewrite E; auto).
    rewrite <- !N.lxor_assoc, N.lxor_nilpotent, !N.lxor_0_l in E2. auto.
  - assert (Hall : forall x, In x (subset_sums rows) -> N.testbit x j = false).
    { apply (sums_least rows (fun x => N.testbit x j = false)).
      - apply N.bits_0.
      - intros x y Hx Hy. rewrite N.lxor_spec, Hx, Hy. reflexivity.
      - exact Hr. }
    intros x Hx Hx'. apply in_map_iff in Hx'. destruct Hx' as (y & <- & Hy).
    specialize (Hall _ Hx) as A. rewrite N.lxor_spec, Hp, (Hall _ Hy) in A. discriminate.
Qed.
Lemma span_size_zero rows : (forall r, In r rows -> r = 0) -> span_size rows = 1%nat.
Proof.
  intros H. rewrite (span_size_eq rows []).
  - reflexivity.
  - intros r Hr. rewrite (H r Hr). apply in_sums_0.
  - intros r [].
Qed.

(** * The program, for rows of which only word 0 is used *)
Definition word0 (row : list N) : N := nth 0 row 0.
Definition rows_ok (mtx : matrix) : Prop := forall r, In r mtx -> r <> [].

Lemma aget_app {A} (l1 l2 : list A) i d :
  (Z.of_nat (length l1) <= i)%Z -> (i < Z.of_nat (length l1 + length l2))%Z ->
  aget (l1 ++ l2) i = Ok (nth (Z.to_nat i - length l1) l2 d).
Proof.
  intros H1 H2. rewrite (aget_ok _ _ d) by (rewrite ?app_length; lia).
  rewrite app_nth2 by lia. reflexivity.
Qed.

Lemma cell_ok mtx k mask : rows_ok mtx -> (0 <= k)%Z -> (Z.to_nat k < length mtx)%nat ->
  cell mtx k 0 mask = Ok (N.land (word0 (nth (Z.to_nat k) mtx [])) mask).
Proof.
  intros Hr H0 H1. unfold cell. rewrite (aget_ok _ _ []) by auto. cbn [bind].
  assert (Hn : nth (Z.to_nat k) mtx [] <> []) by (apply Hr, nth_In; auto).
  rewrite (aget_ok _ _ 0).
  - reflexivity.
  - lia.
  - destruct (nth (Z.to_nat k) mtx []); [congruence|]. cbn. lia.
Qed.

Lemma land_bit w j : j < 32 -> (N.land w (2 ^ j) =? 0) = negb (N.testbit w j).
Proof.
  intros Hj. destruct (N.testbit w j) eqn:E; cbn [negb].
  - apply N.eqb_neq. intros H. assert (T : N.testbit (N.land w (2 ^ j)) j = true)
      by (rewrite N.land_spec, E, N.pow2_bits_true; auto).
    rewrite H, N.bits_0 in T. discriminate.
  - apply N.eqb_eq. apply N.bits_inj_0. intro k. rewrite N.land_spec.
    destruct (N.eq_dec k j) as [->|Hne]; [rewrite E; auto|].
    rewrite N.pow2_bits_false by auto. apply andb_false_r.
Qed.

Lemma find_pivot_spec mtx j : rows_ok mtx -> j < 32 -> forall fuel k,
  (0 <= k)%Z -> (k <= Z.of_nat (length mtx))%Z -> (length mtx - Z.to_nat k < fuel)%nat ->
  exists k', find_pivot fuel mtx k (Z.of_nat (length mtx)) 0 (2 ^ j) = Ok k' /\
    (k <= k')%Z /\ (k' <= Z.of_nat (length mtx))%Z /\
    (forall m, (Z.to_nat k <= m)%nat -> (m < Z.to_nat k')%nat -> N.testbit (word0 (nth m mtx [])) j = false) /\
    ((k' < Z.of_nat (length mtx))%Z -> N.testbit (word0 (nth (Z.to_nat k') mtx [])) j = true).
Proof.
  intros Hr Hj. induction fuel as [|fuel IH]; intros k H0 H1 Hf; [lia|]. cbn [find_pivot].
  destruct (Z.ltb_spec k (Z.of_nat (length mtx))) as [Hk|Hk].
  - rewrite cell_ok by (auto; lia). cbn [bind]. rewrite land_bit by auto.
    destruct (N.testbit (word0 (nth (Z.to_nat k) mtx [])) j) eqn:E; cbn [negb].
    + exists k. split; auto. split; [lia|]. split; [lia|]. split; [intros; lia|auto].
    + destruct (IH (k + 1)%Z) as (k' & E1 & E2 & E3 & E4 & E5); try lia.
      exists k'. split; auto. split; [lia|]. split; [lia|]. split; auto.
      intros m Hm1 Hm2. destruct (Nat.eq_dec m (Z.to_nat k)) as [->|Hne]; auto. apply E4; lia.
  - exists k. split; auto. split; [lia|]. split; [lia|]. split; [intros; lia|lia].
Qed.

Definition elim_row (p : list N) (j : N) (row : list N) : list N :=
  if N.testbit (word0 row) j then set_nth row 0 (N.lxor (word0 row) (word0 p)) else row.

Lemma xor_words_1 ri rk : ri <> [] -> rk <> [] ->
  xor_words 1 ri rk = Ok (set_nth rk 0 (N.lxor (word0 rk) (word0 ri))).
Proof. intros H1 H2. destruct ri, rk; try congruence. reflexivity. Qed.

Lemma set_nth_app {A} (l1 l2 : list A) x a : set_nth (l1 ++ x :: l2) (length l1) a = l1 ++ a :: l2.
Proof. induction l1; cbn; [auto|]. rewrite IHl1. auto. Qed.

Lemma word0_set row v : row <> [] -> word0 (set_nth row 0 v) = v.
Proof. destruct row; [congruence|]. reflexivity. Qed.

(** rows k.. are processed one by one *)
Lemma eliminate_spec j pre p mid : j < 32 -> p <> [] -> forall rest fuel,
  rows_ok (pre ++ p :: mid ++ rest) -> (length rest < fuel)%nat ->
  eliminate fuel (pre ++ p :: mid ++ rest) (Z.of_nat (length pre))
      (Z.of_nat (length pre + 1 + length mid)) (Z.of_nat (length pre + 1 + length mid + length rest)) 0 0 (2 ^ j)
    = Ok (pre ++ p :: mid ++ map (elim_row p j) rest).
Proof.
  intros Hj Hp rest. revert mid. induction rest as [|r rest IH]; intros mid fuel Hr Hf;
    (destruct fuel as [|fuel]; [cbn in Hf; lia|]); cbn [eliminate map length] in *.
  - rewrite Nat.add_0_r, Z.ltb_irrefl. reflexivity.
  - destruct (Z.ltb_spec (Z.of_nat (length pre + 1 + length mid)) (Z.of_nat (length pre + 1 + length mid + S (length rest)))); [|lia].
    rewrite cell_ok.
    2: auto. 2: lia. 2: (rewrite app_length; cbn [length]; rewrite app_length; cbn [length]; lia).
    rewrite Nat2Z.id. cbn [bind]. rewrite land_bit by auto.
    assert (En : nth (length pre + 1 + length mid) (pre ++ p :: mid ++ r :: rest) [] = r).
    { rewrite app_nth2 by lia. replace (length pre + 1 + length mid - length pre)%nat with (S (length mid)) by lia.
      cbn [nth]. rewrite app_nth2 by lia. rewrite Nat.sub_diag. reflexivity. }
    rewrite En.
    assert (Hrn : r <> []) by (apply Hr, in_or_app; right; right; apply in_or_app; right; left; auto).
    assert (Es : forall r', pre ++ p :: (mid ++ [r']) ++ rest = pre ++ p :: mid ++ r' :: rest)
      by (intros; rewrite <- app_assoc; reflexivity).
    assert (El : forall r', length (mid ++ [r']) = S (length mid)) by (intros; rewrite app_length; cbn; lia).
    assert (Hstep : forall r', r' <> [] ->
      eliminate fuel (pre ++ p :: mid ++ r' :: rest) (Z.of_nat (length pre))
        (Z.of_nat (length pre + 1 + length mid) + 1) (Z.of_nat (length pre + 1 + length mid + S (length rest))) 0 0 (2 ^ j)
      = Ok (pre ++ p :: mid ++ r' :: map (elim_row p j) rest)).
    { intros r' Hr'. specialize (IH (mid ++ [r']) fuel). rewrite El in IH. rewrite Es in IH.
      replace (Z.of_nat (length pre + 1 + length mid) + 1)%Z with (Z.of_nat (length pre + 1 + S (length mid))) by lia.
      replace (length pre + 1 + length mid + S (length rest))%nat with (length pre + 1 + S (length mid) + length rest)%nat by lia.
      rewrite IH; [rewrite <- app_assoc; reflexivity| |lia].
      intros x Hx. apply in_app_iff in Hx. destruct Hx as [Hx|[Hx|Hx]].
      - apply Hr, in_or_app; auto.
      - subst; auto.
      - apply in_app_iff in Hx. destruct Hx as [Hx|[Hx|Hx]].
        + apply Hr, in_or_app. right. right. apply in_or_app. auto.
        + subst; auto.
        + apply Hr, in_or_app. right. right. apply in_or_app. right. right. auto. }
    unfold elim_row at 1. destruct (N.testbit (word0 r) j); cbn [negb].
    + rewrite (aget_app _ _ _ []) by (cbn [length]; rewrite ?app_length; cbn [length]; lia).
      rewrite Nat2Z.id, Nat.sub_diag. cbn [nth bind].
      rewrite (aget_ok _ _ []) by (rewrite ?app_length; cbn [length]; rewrite ?app_length; cbn [length]; lia).
      rewrite Nat2Z.id, En. cbn [bind].
      change (Z.to_nat (0 - 0 + 1)) with 1%nat. rewrite xor_words_1 by auto. cbn [bind].
      rewrite aset_ok by (rewrite ?app_length; cbn [length]; rewrite ?app_length; cbn [length]; lia).
      cbn [bind]. rewrite Nat2Z.id.
      replace (length pre + 1 + length mid)%nat with (length (pre ++ p :: mid)) by (rewrite app_length; cbn; lia).
      replace (pre ++ p :: mid ++ r :: rest) with ((pre ++ p :: mid) ++ r :: rest) by (rewrite <- app_assoc; reflexivity).
      rewrite set_nth_app, <- app_assoc. cbn [app].
      replace (length (pre ++ p :: mid)) with (length pre + 1 + length mid)%nat by (rewrite app_length; cbn; lia).
      apply Hstep. destruct r; [congruence|discriminate].
    + cbn [bind]. apply Hstep. auto.
Qed.

(** Swapping the pivot up and eliminating below, as an operation on the list of
    rows from [i] on. *)
Lemma elim_row_nonempty p j r : r <> [] -> elim_row p j r <> [].
Proof. intros H. unfold elim_row. destruct (N.testbit _ _); auto. destruct r; [congruence|discriminate]. Qed.
Lemma word0_elim p j r : r <> [] -> word0 (elim_row p j r)
  = if N.testbit (word0 r) j then N.lxor (word0 r) (word0 p) else word0 r.
Proof. intros H. unfold elim_row. destruct (N.testbit _ _); auto. apply word0_set. auto. Qed.

Definition lows (n : N) (rows : matrix) : list N := map (fun r => word0 r mod 2 ^ n) rows.

Lemma lxor_mod a b n : N.lxor a b mod 2 ^ n = N.lxor (a mod 2 ^ n) (b mod 2 ^ n).
Proof.
  apply N.bits_inj. intro k. rewrite testbit_mod, !N.lxor_spec, !testbit_mod.
  destruct (k <? n), (N.testbit a k), (N.testbit b k); reflexivity.
Qed.

(** Main loop: [done] are the finished pivot rows, [todo] the others. *)
Lemma rank_loop_spec n : n <= 32 -> forall fuel done todo j mask,
  rows_ok (done ++ todo) -> j <= n -> (N.to_nat (n - j) < fuel)%nat ->
  (j <> 0 -> mask = 2 ^ (j - 1)) ->
  (forall r, In r todo -> forall b, b < j -> N.testbit (word0 r) b = false) ->
  exists r, rank_loop fuel (done ++ todo) (Z.of_nat (length done)) (Z.of_N j)
      (Z.of_nat (length (done ++ todo))) (Z.of_N n) 0 mask = Ok (Z.of_nat r) /\
    (length done <= r)%nat /\ (r <= length (done ++ todo))%nat /\
    (r <= length done + N.to_nat (n - j))%nat /\
    span_size (lows n todo) = (2 ^ (r - length done))%nat.
Proof.
  intros Hn. induction fuel as [|fuel IH]; intros done todo j mask Hr Hj Hf Hm Hz; [lia|].
  cbn [rank_loop].
  destruct (Z.ltb_spec (Z.of_N j) (Z.of_N n)) as [Hjn|Hjn]; cbn [andb].
  2:{ exists (length done). split; auto. split; [lia|]. split; [rewrite app_length; lia|]. split; [lia|].
      rewrite Nat.sub_diag. cbn [Nat.pow]. apply span_size_zero.
      intros x Hx. apply in_map_iff in Hx. destruct Hx as (r & <- & Hx).
      apply N.bits_inj_0. intro b. rewrite testbit_mod. destruct (N.ltb_spec b n); auto.
      cbn [andb]. apply Hz; auto. lia. }
  destruct (Z.ltb_spec (Z.of_nat (length done)) (Z.of_nat (length (done ++ todo)))) as [Hd|Hd].
  2:{ rewrite app_length in Hd. destruct todo as [|t todo]; [|cbn in Hd; lia].
      exists (length done). split; auto. split; [lia|]. split; [rewrite app_length; lia|]. split; [lia|].
      rewrite Nat.sub_diag. reflexivity. }
  replace (Z.of_N j / 32)%Z with 0%Z by (symmetry; apply Z.div_small; lia).
  rewrite (Z.mod_small (Z.of_N j) 32) by lia.
  set (mask' := if negb (Z.of_N j =? 0)%Z then w32 (N.shiftl mask 1) else 1).
  assert (Em : mask' = 2 ^ j).
  { unfold mask'. destruct (Z.eqb_spec (Z.of_N j) 0) as [E|E]; cbn [negb].
    - replace j with 0 by lia. reflexivity.
    - rewrite Hm by lia. rewrite N.shiftl_mul_pow2, <- N.pow_add_r.
      replace (j - 1 + 1) with j by lia. apply w32_small. apply N.pow_lt_mono_r; lia. }
  rewrite Em. clear mask' Em Hm mask.
  destruct (find_pivot_spec (done ++ todo) j Hr ltac:(lia)
    (S (Z.to_nat (Z.of_nat (length (done ++ todo)) - Z.of_nat (length done))))
    (Z.of_nat (length done))) as (k & Ek & Hk1 & Hk2 & Hk3 & Hk4); try lia.
  rewrite Ek. cbn [bind].
  destruct (Z.ltb_spec k (Z.of_nat (length (done ++ todo)))) as [Hkl|Hkl].
  - (* pivot found *)
    specialize (Hk4 Hkl).
    assert (exists a p b, todo = a ++ p :: b /\ Z.to_nat k = (length done + length a)%nat) as (a & p & b & Et & Ekn).
    { destruct (nth_split todo [] (n := Z.to_nat k - length done)) as (a & b & E & L).
      - rewrite app_length in Hkl. lia.
      - exists a, (nth (Z.to_nat k - length done) todo []), b. split; auto. lia. }
    subst todo.
    assert (Hp : N.testbit (word0 p) j = true).
    { rewrite Ekn in Hk4. rewrite app_nth2 in Hk4 by lia.
      replace (length done + length a - length done)%nat with (length a) in Hk4 by lia.
      rewrite app_nth2, Nat.sub_diag in Hk4 by lia. exact Hk4. }
    assert (Hpn : p <> []) by (apply Hr, in_or_app; right; apply in_or_app; right; left; auto).
    assert (Ha : forall r, In r a -> N.testbit (word0 r) j = false).
    { intros r Hra. apply (In_nth _ _ []) in Hra. destruct Hra as (m & Hml & <-).
      specialize (Hk3 (length done + m)%nat). rewrite app_nth2 in Hk3 by lia.
      replace (length done + m - length done)%nat with m in Hk3 by lia.
      rewrite app_nth1 in Hk3 by auto. apply Hk3; lia. }
    (* after the swap: done ++ p :: a' ++ b with a' a permutation of a *)
    assert (Hsw : exists a', length a' = length a /\ Permutation a' a /\
      (if negb (Z.of_nat (length done) =? k)%Z then
         do ri <- aget (done ++ a ++ p :: b) (Z.of_nat (length done)) ;;
         do rk <- aget (done ++ a ++ p :: b) k ;;
         do mtx <- aset (done ++ a ++ p :: b) (Z.of_nat (length done)) rk ;; aset mtx k ri
       else Ok (done ++ a ++ p :: b)) = Ok (done ++ p :: a' ++ b)).
    { destruct a as [|x a].
      - exists []. split; auto. split; auto.
        replace (Z.of_nat (length done) =? k)%Z with true by (cbn [length] in Ekn; lia). reflexivity.
      - exists (a ++ [x]). split; [rewrite app_length; cbn; lia|].
        split; [apply Permutation_sym, Permutation_cons_append|].
        cbn [length] in Ekn. replace (Z.of_nat (length done) =? k)%Z with false by lia. cbn [negb].
        rewrite (aget_app _ _ _ []) by (cbn [length app]; rewrite ?app_length; cbn [length]; lia).
        rewrite Nat2Z.id, Nat.sub_diag. cbn [nth app bind].
        rewrite (aget_app _ _ _ []) by (cbn [length app]; rewrite ?app_length; cbn [length]; lia).
        rewrite Ekn. replace (length done + S (length a) - length done)%nat with (S (length a)) by lia.
        cbn [nth]. rewrite app_nth2, Nat.sub_diag by lia. cbn [nth bind].
        rewrite aset_ok by (rewrite ?app_length; cbn [length]; rewrite ?app_length; cbn [length]; lia).
        rewrite Nat2Z.id, set_nth_app. cbn [bind].
        rewrite aset_ok by (rewrite ?app_length; cbn [length]; rewrite ?app_length; cbn [length]; lia).
        rewrite Ekn. replace (length done + S (length a))%nat with (length (done ++ p :: a)) by (rewrite app_length; cbn; lia).
        replace (done ++ p :: a ++ p :: b) with ((done ++ p :: a) ++ p :: b) by (rewrite <- app_assoc; reflexivity).
        rewrite set_nth_app, <- !app_assoc. reflexivity. }
    destruct Hsw as (a' & La & Pa & Esw). rewrite Esw. cbn [bind].
    assert (Lm : length (done ++ a ++ p :: b) = (length done + 1 + length a' + length b)%nat)
      by (rewrite !app_length; cbn [length]; lia).
    replace (k + 1)%Z with (Z.of_nat (length done + 1 + length a')) by lia.
    rewrite Lm.
    assert (Hr2 : rows_ok (done ++ p :: a' ++ b)).
    { intros x Hx. apply Hr. apply in_app_iff in Hx. apply in_or_app. destruct Hx as [Hx|[Hx|Hx]]; auto.
      - right. apply in_or_app. right. left. auto.
      - right. apply in_app_iff in Hx. apply in_or_app. destruct Hx as [Hx|Hx]; [left|right; right; auto].
        eapply Permutation_in; eauto. }
    rewrite eliminate_spec; [|lia|auto|auto|rewrite Nat2Z.inj_add in *; rewrite Lm in Hkl; lia].
    cbn [bind].
    set (todo' := a' ++ map (elim_row p j) b).
    assert (Et' : todo' = map (elim_row p j) (a' ++ b)).
    { unfold todo'. rewrite map_app. f_equal. symmetry. rewrite <- map_id. apply map_ext_in.
      intros r Hra. unfold elim_row. rewrite Ha; auto. eapply Permutation_in; eauto. }
    assert (Hab : forall r, In r (a' ++ b) -> In r (a ++ p :: b)).
    { intros r Hra. apply in_app_iff in Hra. apply in_or_app. destruct Hra as [H|H]; [left|right; right; auto].
      eapply Permutation_in; eauto. }
    assert (Habn : forall r, In r (a' ++ b) -> r <> []).
    { intros r Hra. apply Hr, in_or_app. right. auto. }
    assert (Hnew : forall r, In r todo' -> forall b0, b0 < j + 1 -> N.testbit (word0 r) b0 = false).
    { rewrite Et'. intros r Hra b0 Hb0. apply in_map_iff in Hra. destruct Hra as (r0 & <- & Hr0).
      rewrite word0_elim by auto. destruct (N.eq_dec b0 j) as [->|Hne].
      - destruct (N.testbit (word0 r0) j) eqn:E; auto. rewrite N.lxor_spec, E, Hp. auto.
      - assert (Z1 : N.testbit (word0 r0) b0 = false) by (apply Hz; [auto|lia]).
        assert (Z2 : N.testbit (word0 p) b0 = false)
          by (apply Hz; [apply in_or_app; right; left; auto|lia]).
        destruct (N.testbit (word0 r0) j); auto. rewrite N.lxor_spec, Z1, Z2. auto. }
    destruct (IH (done ++ [p]) todo' (j + 1) (2 ^ j)) as (r & Er & R1 & R2 & R3 & R4).
    + intros x Hx. rewrite <- app_assoc in Hx. apply in_app_iff in Hx. destruct Hx as [Hx|[Hx|Hx]].
      * apply Hr, in_or_app; auto.
      * subst; auto.
      * rewrite Et' in Hx. apply in_map_iff in Hx. destruct Hx as (y & <- & Hy). apply elim_row_nonempty; auto.
    + lia.
    + lia.
    + intros _. f_equal. lia.
    + auto.
    + rewrite <- app_assoc in Er. cbn [app] in Er.
      rewrite app_length in Er, R1, R3, R4. cbn [length] in Er, R1, R3, R4.
      assert (Ll : length (done ++ p :: todo') = (length done + 1 + length a' + length b)%nat).
      { unfold todo'. rewrite app_length. cbn [length]. rewrite app_length, map_length. lia. }
      rewrite Ll in Er. replace (Z.of_nat (length done) + 1)%Z with (Z.of_nat (length done + 1)) by lia.
      replace (Z.of_N j + 1)%Z with (Z.of_N (j + 1)) by lia.
      exists r. split; [exact Er|]. split; [lia|]. split.
      { rewrite <- app_assoc in R2. cbn [app] in R2. lia. }
      split; [lia|].
      (* span *)
      assert (Hps : span_size (lows n (a ++ p :: b)) = span_size (lows n (p :: a' ++ b))).
      { apply span_size_perm. apply Permutation_map. etransitivity; [apply Permutation_sym, Permutation_middle|].
        constructor. apply Permutation_app_tail. apply Permutation_sym. auto. }
      rewrite Hps.
      assert (Hel : lows n todo' = map (fun x => if N.testbit x j then N.lxor x (word0 p mod 2 ^ n) else x) (lows n (a' ++ b))).
      { unfold lows. rewrite Et', !map_map. apply map_ext_in. intros x Hx.
        rewrite word0_elim by auto. rewrite testbit_mod. replace (j <? n) with true by lia. cbn [andb].
        destruct (N.testbit (word0 x) j); auto. apply lxor_mod. }
      change (lows n (p :: a' ++ b)) with (word0 p mod 2 ^ n :: lows n (a' ++ b)).
      rewrite <- (span_size_elim (word0 p mod 2 ^ n) (fun x => N.testbit x j)).
      rewrite <- Hel. rewrite (span_size_pivot _ _ j).
      * rewrite R4. replace (r - length done)%nat with (S (r - (length done + 1))) by lia. reflexivity.
      * rewrite testbit_mod, Hp. replace (j <? n) with true by lia. reflexivity.
      * intros x Hx. apply in_map_iff in Hx. destruct Hx as (y & <- & Hy).
        rewrite testbit_mod, (Hnew y Hy j) by lia. apply andb_false_r.
  - (* no pivot in this column *)
    assert (k = Z.of_nat (length (done ++ todo))) by lia. subst k.
    destruct (IH done todo (j + 1) (2 ^ j)) as (r & Er & R1 & R2 & R3 & R4); auto; try lia.
    + intros _. f_equal. lia.
    + intros r Hra b Hb. destruct (N.eq_dec b j) as [->|Hne]; [|apply Hz; auto; lia].
      apply (In_nth _ _ []) in Hra. destruct Hra as (m & Hml & <-).
      specialize (Hk3 (length done + m)%nat). rewrite app_nth2 in Hk3 by lia.
      replace (length done + m - length done)%nat with m in Hk3 by lia.
      apply Hk3; [lia|]. rewrite app_length. lia.
    + replace (Z.of_N j + 1)%Z with (Z.of_N (j + 1)) by lia.
      exists r. split; [exact Er|]. split; auto. split; auto. split; [lia|auto].
Qed.

Lemma binary_rank_spec mtx n : rows_ok mtx -> n <= 32 ->
  exists r, binary_rank mtx (Z.of_nat (length mtx)) (Z.of_N n) = Ok (Z.of_nat r) /\
    (r <= length mtx)%nat /\ (r <= N.to_nat n)%nat /\ is_rank (map word0 mtx) n r.
Proof.
  intros Hr Hn. unfold binary_rank.
  destruct (N.eq_dec n 0) as [->|Hn0].
  { exists 0%nat. split; [destruct mtx; reflexivity|]. split; [lia|]. split; [lia|].
    unfold is_rank. apply span_size_zero. intros x Hx. apply in_map_iff in Hx.
    destruct Hx as (y & <- & _). apply N.mod_1_r. }
  replace ((Z.of_N n - 1) / 32)%Z with 0%Z by (symmetry; apply Z.div_small; lia).
  destruct (rank_loop_spec n Hn (S (Z.to_nat (Z.of_N n))) [] mtx 0 1) as (r & Er & _ & R2 & R3 & R4); auto; try lia.
  exists r. split; [exact Er|]. split; auto. split; [cbn [length] in R3; lia|].
  unfold is_rank. rewrite map_map. unfold lows in R4. rewrite R4. cbn [length].
  rewrite Nat.sub_0_r. reflexivity.
Qed.

(** The rank tests: which counter a sample goes to. *)
Lemma rank_sample_spec rows n lo counts : n <= 32 -> (lo <= length rows)%nat ->
  length counts = S (length rows) ->
  exists r, is_rank rows n r /\ (r <= length rows)%nat /\
    rank_sample (Z.of_nat (length rows)) (Z.of_N n) (Z.of_nat lo) rows counts
      = Ok (set_nth counts (Nat.max lo r) (nth (Nat.max lo r) counts 0 + 1)).
Proof.
  intros Hn Hlo Hc. unfold rank_sample.
  destruct (binary_rank_spec (map (fun w => [w]) rows) n) as (r & Er & R1 & R2 & R3); auto.
  { intros x Hx. apply in_map_iff in Hx. destruct Hx as (w & <- & _). discriminate. }
  rewrite map_length in Er, R1. rewrite map_map in R3. cbn [word0 nth] in R3. rewrite map_id in R3.
  exists r. split; auto. split; auto. rewrite Er. cbn [bind].
  replace (if (Z.of_nat r <=? Z.of_nat lo)%Z then Z.of_nat lo else Z.of_nat r) with (Z.of_nat (Nat.max lo r))
    by (destruct (Z.leb_spec (Z.of_nat r) (Z.of_nat lo)); lia).
  rewrite (aget_ok _ _ 0) by lia. cbn [bind]. rewrite aset_ok by lia. rewrite Nat2Z.id. reflexivity.
Qed.

Lemma is_rank_unique rows n r r' : is_rank rows n r -> is_rank rows n r' -> r = r'.
Proof. unfold is_rank. intros H1 H2. rewrite H1 in H2. apply Nat.pow_inj_r in H2; lia. Qed.
