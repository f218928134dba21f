(** Search trees of random orders. *)
From Coq Require Import List Arith NArith Lia Lra Reals Permutation Bool QArith Qreals.
From Verif Require Import OpermReal RunsArcs CoinLaw TreeOrderSpec OrderAverage.
Import ListNotations.
Open Scope R_scope.

(** ** ranks *)
Definition above (x y : N) : bool := (x <? y)%N.
Definition rank (xs : list N) (x : N) : nat := length (filter (fun y => (y <? x)%N) xs).
Lemma filter_perm {A} (f : A -> bool) l m : Permutation l m -> Permutation (filter f l) (filter f m).
Proof.
  induction 1; cbn [filter]; [constructor|destruct (f x); [constructor|]; assumption|destruct (f x), (f y); try reflexivity; apply perm_swap|etransitivity; eassumption].
Qed.
Lemma rank_pick xs x r : NoDup xs -> In (x, r) (picks xs) -> length (filter (fun y => negb (above x y)) r) = rank xs x.
Proof.
  intros N I. apply picks_perm in I. unfold rank. rewrite (Permutation_length (filter_perm _ _ _ I)). cbn [filter]. rewrite N.ltb_irrefl.
  apply (Permutation_NoDup I) in N. inversion N as [|? ? NI ND]; subst. f_equal. apply filter_ext_in. intros y Y. unfold above.
  destruct (N.ltb_spec x y), (N.ltb_spec y x); try reflexivity; try lia. exfalso. assert (x = y) by lia. subst. contradiction.
Qed.
Lemma rank_lt xs x y : NoDup xs -> In x xs -> (x < y)%N -> (rank xs x < rank xs y)%nat.
Proof.
  intros ND I L. unfold rank. assert (H : (length (x :: filter (fun z => (z <? x)%N) xs) <= length (filter (fun z => (z <? y)%N) xs))%nat).
  { apply NoDup_incl_length.
    - constructor; [rewrite filter_In; intros [_ K]; apply N.ltb_lt in K; lia|]. now apply NoDup_filter.
    - intros z [<-|Z]; apply filter_In; [split; [exact I|now apply N.ltb_lt]|]. apply filter_In in Z. destruct Z as [Z1 Z2]. apply N.ltb_lt in Z2. split; [exact Z1|apply N.ltb_lt; lia]. }
  cbn [length] in H. lia.
Qed.
Lemma rank_bound xs x : NoDup xs -> In x xs -> (rank xs x < length xs)%nat.
Proof.
  intros ND I. unfold rank. assert (H : (length (x :: filter (fun z => (z <? x)%N) xs) <= length xs)%nat).
  { apply NoDup_incl_length; [constructor; [rewrite filter_In; intros [_ K]; apply N.ltb_lt in K; lia|now apply NoDup_filter]|].
    intros z [<-|Z]; [exact I|]. apply filter_In in Z. apply Z. }
  cbn [length] in H. lia.
Qed.
Lemma ranks xs : NoDup xs -> Permutation (map (rank xs) xs) (seq 0 (length xs)).
Proof.
  intro ND. apply NoDup_Permutation_bis.
  - assert (G : forall l, NoDup l -> incl l xs -> NoDup (map (rank xs) l)).
    { induction l as [|x l IH]; intros D J; [constructor|]. inversion D; subst. cbn [map]. constructor; [|apply IH; [assumption|intros z Z; apply J; now right]].
      intro K. apply in_map_iff in K. destruct K as (y & E & K). assert (x <> y) by (intros ->; contradiction).
      assert (XI : In x xs) by (apply J; now left). assert (YI : In y xs) by (apply J; now right).
      destruct (N.lt_total x y) as [L|[L|L]]; [pose proof (rank_lt xs x y ND XI L); lia|contradiction|pose proof (rank_lt xs y x ND YI L); lia]. }
    apply G; [exact ND|intros z Z; exact Z].
  - rewrite map_length, seq_length. lia.
  - intros k K. apply in_map_iff in K. destruct K as (x & <- & I). apply in_seq. pose proof (rank_bound xs x ND I). lia.
Qed.
Lemma rsum_seq n f : rsum n f = lsumR (seq 0 n) f.
Proof.
  induction n as [|n IH]; [reflexivity|]. rewrite seq_S, lsumR_app, <- IH. cbn [rsum lsumR Nat.add]. lra.
Qed.
Lemma picks_ranks xs (h : nat -> nat -> R) : NoDup xs ->
  lsumR (picks xs) (fun yr => h (length (filter (fun y => negb (above (fst yr) y)) (snd yr))) (length (filter (above (fst yr)) (snd yr)))) =
  rsum (length xs) (fun k => h k (length xs - 1 - k)%nat).
Proof.
  intro ND. rewrite rsum_seq. rewrite <- (lsumR_perm _ _ (fun k => h k (length xs - 1 - k)%nat) (ranks xs ND)). rewrite lsumR_map.
  transitivity (lsumR (map fst (picks xs)) (fun x => h (rank xs x) (length xs - 1 - rank xs x)%nat)); [|now rewrite picks_fst]. rewrite lsumR_map. apply lsumR_ext. intros (x & r) I. cbn [fst snd]. rewrite (rank_pick xs x r ND I).
  f_equal. pose proof (filter_total (above x) r). pose proof (picks_size _ _ _ I). pose proof (rank_pick xs x r ND I). lia.
Qed.

(** ** growing *)
Definition fit (d : nat) (ys : list N) : bool := match bst_grow d ys Empty with Some _ => true | None => false end.
Lemma grow_fork d v : forall ys l r, bst_grow (S d) ys (Fork l v r) =
  match bst_grow d (filter (fun y => negb (above v y)) ys) l, bst_grow d (filter (above v) ys) r with Some l, Some r => Some (Fork l v r) | _, _ => None end.
Proof.
  induction ys as [|y ys IH]; intros l r; [reflexivity|]. cbn [bst_grow filter]. change (bst_add (S d) y (Fork l v r)) with
    (if (v <? y)%N then match bst_add d y r with inl r => inl (Fork l v r) | inr p => inr (2 ^ N.of_nat d + p)%N end
      else match bst_add d y l with inl l => inl (Fork l v r) | inr p => inr p end). change (above v y) with (v <? y)%N. destruct (v <? y)%N; cbn [negb].
  - change (bst_grow d (y :: filter (above v) ys) r) with (match bst_add d y r with inl t => bst_grow d (filter (above v) ys) t | inr _ => None end).
    destruct (bst_add d y r) as [r'|p]; [apply IH|]. now destruct (bst_grow d _ l).
  - change (bst_grow d (y :: filter (fun y => negb (above v y)) ys) l) with (match bst_add d y l with inl t => bst_grow d (filter (fun y => negb (above v y)) ys) t | inr _ => None end).
    destruct (bst_add d y l) as [l'|p]; [apply IH|]. reflexivity.
Qed.
Lemma fit_cons d x ys : fit (S d) (x :: ys) = fit d (filter (above x) ys) && fit d (filter (fun y => negb (above x y)) ys).
Proof.
  unfold fit. cbn [bst_grow bst_add]. rewrite grow_fork. destruct (bst_grow d (filter (fun y => negb (above x y)) ys) Empty), (bst_grow d (filter (above x) ys) Empty); reflexivity.
Qed.

(** the chance that n numbers fit in d levels *)
Fixpoint room (d n : nat) : R :=
  match d, n with
  | O, O => 1
  | O, S _ => 0
  | S d, O => 1
  | S d, S n => rsum (S n) (fun k => room d k * room d (n - k)) / INR (S n)
  end.
Theorem fit_avg : forall d n xs, NoDup xs -> length xs = n -> oavg n xs (fun ys => b2r (fit d ys)) = room d n.
Proof.
  induction d as [|d IH]; intros [|n] xs ND L.
  - reflexivity.
  - cbn [room]. etransitivity; [|apply (oavg_const (S n) xs 0 L)]. apply oavg_ext; [exact L|]. intros ys P. apply Permutation_length in P. destruct ys; [cbn in P; lia|]. reflexivity.
  - reflexivity.
  - cbn [oavg room]. f_equal.
    rewrite (lsumR_ext (picks xs) _ (fun yr => room d (length (filter (fun y => negb (above (fst yr) y)) (snd yr))) * room d (length (filter (above (fst yr)) (snd yr))))).
    + rewrite (picks_ranks xs (fun a b => room d a * room d b) ND). rewrite L. apply rsum_ext. intros k K. now replace (S n - 1 - k)%nat with (n - k)%nat by lia.
    + intros (x & r) I. cbn [fst snd]. pose proof (picks_size _ _ _ I) as LR. assert (NR : NoDup r) by (apply (Permutation_NoDup (picks_perm _ _ _ I)) in ND; now inversion ND).
      rewrite (oavg_ext n r _ (fun ys => b2r (fit d (filter (above x) ys)) * b2r (fit d (filter (fun y => negb (above x y)) ys)))) by (lia || (intros; now rewrite fit_cons, b2r_and)).
      rewrite (oavg_classes n (above x) r (fun l => b2r (fit d l)) (fun l => b2r (fit d l))) by lia.
      rewrite !(IH _ _ (NoDup_filter _ NR) eq_refl). ring.
Qed.

(** ** the slot where the last of them ends *)
Fixpoint stop (d : nat) (t : bst) (ys : list N) : option N :=
  match ys with
  | [] => None
  | y :: ys => match bst_add d y t with
               | inl t => stop d t ys
               | inr p => match ys with [] => Some p | _ :: _ => None end
               end
  end.
Definition stops (d : nat) (p : N) (ys : list N) : bool := match stop d Empty ys with Some q => (q =? p)%N | None => false end.
Lemma last_cons {A} (c : A -> bool) y ys : ys <> [] -> last_in c (y :: ys) = last_in c ys.
Proof. intro H. destruct (exists_last H) as (zs & z & ->). change (y :: zs ++ [z]) with ((y :: zs) ++ [z]). now rewrite !last_in_snoc. Qed.
Lemma last_filter {A} (c : A -> bool) ys : last_in c ys = true -> filter c ys <> [].
Proof.
  intro H. destruct ys as [|y0 ys0]; [discriminate|]. destruct (@exists_last _ (y0 :: ys0) ltac:(discriminate)) as (zs & z & E). rewrite E in *. rewrite last_in_snoc in H. rewrite filter_app. cbn [filter]. rewrite H. now destruct (filter c zs).
Qed.
Lemma stop_fork d v : forall ys l r, ys <> [] -> stop (S d) (Fork l v r) ys =
  if last_in (above v) ys
  then match bst_grow d (filter (fun y => negb (above v y)) ys) l, stop d r (filter (above v) ys) with Some _, Some p => Some (2 ^ N.of_nat d + p)%N | _, _ => None end
  else match bst_grow d (filter (above v) ys) r, stop d l (filter (fun y => negb (above v y)) ys) with Some _, Some p => Some p | _, _ => None end.
Proof.
  induction ys as [|y ys IH]; intros l r NE; [congruence|]. cbn [stop].
  change (bst_add (S d) y (Fork l v r)) with
    (if (v <? y)%N then match bst_add d y r with inl r => inl (Fork l v r) | inr p => inr (2 ^ N.of_nat d + p)%N end
      else match bst_add d y l with inl l => inl (Fork l v r) | inr p => inr p end).
  destruct ys as [|z ys].
  - change (last_in (above v) [y]) with (v <? y)%N. cbn [filter]. unfold above. destruct (v <? y)%N; cbn [negb bst_grow stop].
    + now destruct (bst_add d y r).
    + now destruct (bst_add d y l).
  - rewrite last_cons by discriminate. set (zs := z :: ys) in *. assert (ZN : zs <> []) by discriminate.
    assert (LN : last_in (above v) zs = false -> filter (fun y => negb (above v y)) zs <> []).
    { intro H. apply last_filter. destruct (@exists_last _ zs ZN) as (us & u & E). rewrite E in *. rewrite last_in_snoc in *. now rewrite H. }
    assert (LP := last_filter (above v) zs).
    assert (SN : forall t p0, match zs with [] => Some p0 | _ :: _ => None end = @None N /\ stop d t zs = stop d t zs) by (intros; split; reflexivity).
    cbn [filter]. change (above v y) with (v <? y)%N. destruct (v <? y)%N; cbn [negb].
    + destruct (bst_add d y r) as [r'|p] eqn:E.
      * rewrite (IH l r' ZN). destruct (last_in (above v) zs); cbn [stop bst_grow]; rewrite E; reflexivity.
      * destruct (last_in (above v) zs) eqn:LZ; cbn [stop bst_grow]; rewrite E; [|reflexivity]. specialize (LP eq_refl). destruct (filter (above v) zs); [congruence|]. now destruct (bst_grow d _ l).
    + destruct (bst_add d y l) as [l'|p] eqn:E.
      * rewrite (IH l' r ZN). destruct (last_in (above v) zs); cbn [stop bst_grow]; rewrite E; reflexivity.
      * destruct (last_in (above v) zs) eqn:LZ; cbn [stop bst_grow]; rewrite E; [reflexivity|]. specialize (LN eq_refl). destruct (filter (fun y => negb (above v y)) zs); [congruence|]. now destruct (bst_grow d _ r).
Qed.

(** the chance that n numbers end at a slot *)
Fixpoint over (d n : nat) : R :=
  match d, n with
  | O, 1%nat => 1
  | O, _ => 0
  | S d, O => 0
  | S d, S n => rsum (S n) (fun k => INR k / INR n * (over d k * room d (n - k))) / INR (S n)
  end.
Lemma stop_bound d : forall ys t p, stop d t ys = Some p -> (p < 2 ^ N.of_nat d)%N.
Proof.
  assert (B : forall d y t p, bst_add d y t = inr p -> (p < 2 ^ N.of_nat d)%N).
  { clear. induction d as [|d IH]; intros y t p H; cbn [bst_add] in H; [injection H as <-; reflexivity|]. rewrite Nat2N.inj_succ, N.pow_succ_r'.
    destruct t as [|l v r]; [discriminate|]. destruct (v <? y)%N.
    - destruct (bst_add d y r) eqn:E; [discriminate|]. injection H as <-. apply IH in E. lia.
    - destruct (bst_add d y l) eqn:E; [discriminate|]. injection H as <-. apply IH in E. lia. }
  induction ys as [|y ys IH]; intros t p H; cbn [stop] in H; [discriminate|]. destruct (bst_add d y t) as [t'|q] eqn:E; [now apply (IH t')|].
  destruct ys; [|discriminate]. injection H as <-. now apply (B d y t).
Qed.
Lemma rsum_rev n f : rsum n f = rsum n (fun k => f (n - 1 - k)%nat).
Proof.
  induction n as [|n IH]; [reflexivity|]. rewrite (rsum_first n (fun k => f (S n - 1 - k)%nat)). cbn [rsum]. rewrite IH. replace (S n - 1 - 0)%nat with n by lia. rewrite Rplus_comm. f_equal.
  apply rsum_ext. intros k K. f_equal. lia.
Qed.
Theorem stop_avg : forall d n xs p, NoDup xs -> length xs = n -> (p < 2 ^ N.of_nat d)%N -> oavg n xs (fun ys => b2r (stops d p ys)) = over d n.
Proof.
  induction d as [|d IH]; intros n xs p ND L P.
  - assert (p = 0%N) by (change (2 ^ N.of_nat 0)%N with 1%N in P; lia). subst p. destruct n as [|[|n]].
    + reflexivity.
    + etransitivity; [|apply (oavg_const 1 xs 1 L)]. apply oavg_ext; [exact L|]. intros ys Q. apply Permutation_length in Q. destruct ys as [|y [|]]; cbn in Q; try lia. reflexivity.
    + etransitivity; [|apply (oavg_const (S (S n)) xs 0 L)]. apply oavg_ext; [exact L|]. intros ys Q. apply Permutation_length in Q. destruct ys as [|y [|]]; cbn in Q; try lia. reflexivity.
  - destruct n as [|n]; [reflexivity|]. cbn [oavg over]. f_equal.
    set (right := (2 ^ N.of_nat d <=? p)%N).
    set (h := fun a b : nat => if right then INR b / INR n * (over d b * room d a) else INR a / INR n * (over d a * room d b)).
    rewrite (lsumR_ext (picks xs) _ (fun yr => h (length (filter (fun y => negb (above (fst yr) y)) (snd yr))) (length (filter (above (fst yr)) (snd yr))))).
    + rewrite (picks_ranks xs h ND). rewrite L. unfold h. destruct right.
      * rewrite rsum_rev. apply rsum_ext. intros k K. replace (S n - 1 - (S n - 1 - k))%nat with k by lia. replace (S n - 1 - k)%nat with (n - k)%nat by lia. reflexivity.
      * apply rsum_ext. intros k K. replace (S n - 1 - k)%nat with (n - k)%nat by lia. reflexivity.
    + intros (x & r) I. cbn [fst snd]. pose proof (picks_size _ _ _ I) as LR. assert (NR : NoDup r) by (apply (Permutation_NoDup (picks_perm _ _ _ I)) in ND; now inversion ND).
      unfold h. destruct n as [|n].
      { destruct r; [|cbn in LR; lia]. cbn. unfold stops. cbn. destruct right; lra. }
      unfold right. destruct (N.leb_spec (2 ^ N.of_nat d) p) as [HP|HP].
      * rewrite (oavg_ext (S n) r _ (fun ys => if last_in (above x) ys then b2r (stops d (p - 2 ^ N.of_nat d) (filter (above x) ys)) * b2r (fit d (filter (fun y => negb (above x y)) ys)) else 0)).
        -- rewrite (oavg_classes_last n (above x) r (fun l => b2r (stops d (p - 2 ^ N.of_nat d) l)) (fun l => b2r (fit d l))) by lia.
           rewrite (IH _ _ _ (NoDup_filter _ NR) eq_refl) by (rewrite Nat2N.inj_succ, N.pow_succ_r' in P; lia). rewrite (fit_avg _ _ _ (NoDup_filter _ NR) eq_refl). reflexivity.
        -- lia.
        -- intros ys Q. apply Permutation_length in Q. unfold stops at 1. cbn [stop bst_add]. rewrite stop_fork by (intros ->; cbn in Q; lia). unfold stops, fit. destruct (last_in (above x) ys).
           ++ destruct (bst_grow d (filter (fun y => negb (above x y)) ys) Empty); [|cbn; ring]. destruct (stop d Empty (filter (above x) ys)) as [q|]; [|cbn; ring]. cbn [b2r]. rewrite Rmult_1_r. f_equal.
              destruct (N.eqb_spec (2 ^ N.of_nat d + q) p), (N.eqb_spec q (p - 2 ^ N.of_nat d)); try reflexivity; lia.
           ++ destruct (bst_grow d (filter (above x) ys) Empty); [|reflexivity]. destruct (stop d Empty (filter (fun y => negb (above x y)) ys)) as [q|] eqn:ES; [|reflexivity]. apply stop_bound in ES.
              destruct (N.eqb_spec q p); [lia|reflexivity].
      * rewrite (oavg_ext (S n) r _ (fun ys => if last_in (fun y => negb (above x y)) ys then b2r (stops d p (filter (fun y => negb (above x y)) ys)) * b2r (fit d (filter (fun z => negb (negb (above x z))) ys)) else 0)).
        -- rewrite (oavg_classes_last n (fun y => negb (above x y)) r (fun l => b2r (stops d p l)) (fun l => b2r (fit d l))) by lia. rewrite filter_neg2.
           rewrite (IH _ _ _ (NoDup_filter _ NR) eq_refl) by lia. rewrite (fit_avg _ _ _ (NoDup_filter _ NR) eq_refl). reflexivity.
        -- lia.
        -- intros ys Q. apply Permutation_length in Q. assert (YN : ys <> []) by (intros ->; cbn in Q; lia). unfold stops at 1. cbn [stop bst_add]. rewrite stop_fork by exact YN. rewrite filter_neg2. unfold stops, fit.
           assert (LL : last_in (fun y => negb (above x y)) ys = negb (last_in (above x) ys)) by (destruct (@exists_last _ ys YN) as (us & u & ->); now rewrite !last_in_snoc). rewrite LL.
           destruct (last_in (above x) ys); cbn [negb].
           ++ destruct (bst_grow d (filter (fun y => negb (above x y)) ys) Empty); [|reflexivity]. destruct (stop d Empty (filter (above x) ys)) as [q|]; [|reflexivity]. destruct (N.eqb_spec (2 ^ N.of_nat d + q) p); [lia|reflexivity].
           ++ destruct (bst_grow d (filter (above x) ys) Empty); [|cbn; ring]. destruct (stop d Empty (filter (fun y => negb (above x y)) ys)) as [q|]; cbn; ring.
Qed.

(** all slots together *)
Lemma stop_snoc d : forall ys t y, stop d t (ys ++ [y]) = match bst_grow d ys t with Some t => match bst_add d y t with inr p => Some p | inl _ => None end | None => None end.
Proof.
  induction ys as [|z ys IH]; intros t y; cbn [app stop bst_grow]; [now destruct (bst_add d y t)|]. destruct (bst_add d z t); [apply IH|]. now destruct ys.
Qed.
Lemma grow_snoc d : forall ys t y, bst_grow d (ys ++ [y]) t = match bst_grow d ys t with Some t => match bst_add d y t with inl t => Some t | inr _ => None end | None => None end.
Proof.
  induction ys as [|z ys IH]; intros t y; cbn [app bst_grow]; [now destruct (bst_add d y t)|]. destruct (bst_add d z t); [apply IH|reflexivity].
Qed.
Lemma rsum_slots d q : (q < 2 ^ N.of_nat d)%N -> rsum (N.to_nat (2 ^ N.of_nat d)) (fun p => b2r (q =? N.of_nat p)%N) = 1.
Proof.
  intro H. assert (G : forall n, rsum n (fun p => b2r (q =? N.of_nat p)%N) = if (q <? N.of_nat n)%N then 1 else 0).
  { induction n as [|n IH]; [cbn; now rewrite (proj2 (N.ltb_ge q 0)) by lia|]. cbn [rsum]. rewrite IH. destruct (N.ltb_spec q (N.of_nat n)), (N.eqb_spec q (N.of_nat n)), (N.ltb_spec q (N.of_nat (S n))); cbn; try lra; lia. }
  rewrite G, N2Nat.id. now rewrite (proj2 (N.ltb_lt _ _)).
Qed.
Lemma stop_parts d ys : ys <> [] -> b2r (fit d (firstn (length ys - 1) ys)) = b2r (fit d ys) + rsum (N.to_nat (2 ^ N.of_nat d)) (fun p => b2r (stops d (N.of_nat p) ys)).
Proof.
  intro H. destruct (@exists_last _ ys H) as (zs & z & ->). rewrite app_length. cbn [length]. replace (length zs + 1 - 1)%nat with (length zs) by lia. rewrite firstn_app, Nat.sub_diag, firstn_O, app_nil_r, firstn_all.
  unfold fit, stops. rewrite grow_snoc. destruct (stop d Empty (zs ++ [z])) as [q|] eqn:E.
  - pose proof (stop_bound _ _ _ _ E) as B. rewrite rsum_slots by exact B. rewrite stop_snoc in E. destruct (bst_grow d zs Empty) as [t|]; [|discriminate]. destruct (bst_add d z t); [discriminate|]. cbn. lra.
  - rewrite stop_snoc in E. cbn [b2r]. rewrite rsum_zero. destruct (bst_grow d zs Empty) as [t|]; [|cbn; lra]. destruct (bst_add d z t); [|discriminate]. cbn. lra.
Qed.
Lemma slots_INR d : INR (N.to_nat (2 ^ N.of_nat d)) = 2 ^ d.
Proof. induction d as [|d IH]; [reflexivity|]. rewrite Nat2N.inj_succ, N.pow_succ_r', N2Nat.inj_mul, mult_INR, IH. change (N.to_nat 2) with 2%nat. rewrite (INR_IZR_INZ 2). reflexivity. Qed.
Theorem over_room d n : 2 ^ d * over d (S n) = room d n - room d (S n).
Proof.
  set (xs := map N.of_nat (seq 0 (S n))).
  assert (ND : NoDup xs) by (apply FinFun.Injective_map_NoDup; [intros a b; apply Nat2N.inj|apply seq_NoDup]).
  assert (L : length xs = S n) by (unfold xs; now rewrite map_length, seq_length).
  pose proof (oavg_first (room d n) (fun ys => b2r (fit d ys)) n (fun xs H1 H2 => fit_avg d n xs H1 H2) 1 xs ND ltac:(lia)) as H. replace (n + 1)%nat with (S n) in H by lia.
  rewrite (oavg_ext (S n) xs _ (fun ys => b2r (fit d ys) + rsum (N.to_nat (2 ^ N.of_nat d)) (fun p => b2r (stops d (N.of_nat p) ys)))) in H.
  2: exact L.
  2:{ intros ys P. apply Permutation_length in P. rewrite <- stop_parts by (intros ->; cbn in P; lia). rewrite <- P, L. now replace (S n - 1)%nat with n by lia. }
  rewrite oavg_plus, oavg_rsum, (fit_avg d (S n) xs ND L) in H by exact L.
  rewrite (rsum_ext _ _ (fun _ => over d (S n))) in H by (intros p Hp; apply stop_avg; [exact ND|exact L|lia]).
  rewrite rsum_const in H. rewrite slots_INR in H. lra.
Qed.

(** ** the first numbers of a longer order *)
Lemma end_stop d : forall ys t n k p, (k <= length ys)%nat -> (1 <= k)%nat -> (tree_end d t n ys = Some (n + k, p)%nat <-> stop d t (firstn k ys) = Some p).
Proof.
  induction ys as [|y ys IH]; intros t n k p K1 K2; [cbn in K1; lia|]. destruct k as [|k]; [lia|]. cbn [tree_end firstn stop]. destruct (bst_add d y t) as [t'|q] eqn:E.
  - destruct k as [|k].
    + cbn [firstn stop]. split; [|discriminate]. intro H. exfalso. assert (G : forall ys t m a p, tree_end d t m ys = Some (a, p) -> (m < a)%nat).
      { clear. induction ys as [|y ys IH]; intros t m a p H; cbn [tree_end] in H; [discriminate|]. destruct (bst_add d y t); [apply IH in H; lia|]. injection H as <- _. lia. }
      apply G in H. lia.
    + rewrite <- (IH t' (S n) (S k) p) by (cbn in K1; lia). now replace (n + S (S k))%nat with (S n + S k)%nat by lia.
  - destruct k as [|k].
    + cbn [firstn]. replace (n + 1)%nat with (S n) by lia. split; intro H; injection H as ->; reflexivity.
    + cbn [length] in K1. destruct ys as [|z ys]; [cbn in K1; lia|]. cbn [firstn]. split; [intro H; injection H as H _; lia|discriminate].
Qed.
Theorem end_avg d i p xs : NoDup xs -> (i < length xs)%nat -> (p < 2 ^ N.of_nat d)%N ->
  oavg (length xs) xs (fun ys => b2r (after_at i (N.to_nat p) (tree_end d Empty 0 ys))) = over d (S i).
Proof.
  intros ND I P. pose proof (oavg_first (over d (S i)) (fun ys => b2r (stops d p ys)) (S i) (fun xs H1 H2 => stop_avg d (S i) xs p H1 H2 P) (length xs - S i) xs ND ltac:(lia)) as H.
  replace (S i + (length xs - S i))%nat with (length xs) in H by lia. rewrite <- H. apply oavg_ext; [reflexivity|]. intros ys Q. apply Permutation_length in Q. f_equal.
  assert (EQ : forall q, tree_end d Empty 0 ys = Some (S i, q) <-> stop d Empty (firstn (S i) ys) = Some q) by (intro q; apply (end_stop d ys Empty 0 (S i) q); lia).
  unfold after_at, stops. destruct (stop d Empty (firstn (S i) ys)) as [q|] eqn:E.
  - destruct (EQ q) as [_ E2]. rewrite (E2 eq_refl). unfold took, ended. cbn [fst snd]. rewrite Nat.eqb_refl, N2Nat.id. reflexivity.
  - destruct (tree_end d Empty 0 ys) as [[a q]|] eqn:E2; [|reflexivity]. unfold took, ended. cbn [fst snd]. destruct (Nat.eqb_spec a (S i)) as [->|]; [|reflexivity]. destruct (EQ q) as [E3 _]. specialize (E3 eq_refl). discriminate.
Qed.
Lemma end_bound d : forall ys t n a p, tree_end d t n ys = Some (a, p) -> (p < 2 ^ N.of_nat d)%N.
Proof.
  induction ys as [|y ys IH]; intros t n a p H; cbn [tree_end] in H; [discriminate|]. destruct (bst_add d y t) eqn:E; [now apply IH in H|]. injection H as _ <-.
  apply (stop_bound d [y] t). cbn [stop]. now rewrite E.
Qed.
Theorem end_avg_all d i xs : NoDup xs -> (i < length xs)%nat ->
  oavg (length xs) xs (fun ys => b2r (after i (tree_end d Empty 0 ys))) = room d i - room d (S i).
Proof.
  intros ND I. rewrite <- over_room.
  rewrite (oavg_ext (length xs) xs _ (fun ys => rsum (N.to_nat (2 ^ N.of_nat d)) (fun p => b2r (after_at i p (tree_end d Empty 0 ys))))).
  - rewrite oavg_rsum by reflexivity. rewrite (rsum_ext _ _ (fun _ => over d (S i))).
    + rewrite rsum_const, slots_INR. reflexivity.
    + intros p Hp. pose proof (end_avg d i (N.of_nat p) xs ND I ltac:(lia)) as H. now rewrite Nat2N.id in H.
  - reflexivity.
  - intros ys _. unfold after, after_at. destruct (tree_end d Empty 0 ys) as [[a q]|] eqn:E; [|cbn [b2r]; now rewrite rsum_zero]. apply end_bound in E.
    rewrite (rsum_ext _ _ (fun p => b2r (took i (a, q)) * b2r (q =? N.of_nat p)%N)) by (intros; now rewrite b2r_and). rewrite <- rsum_scale, rsum_slots by exact E. ring.
Qed.
