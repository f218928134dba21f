From Verif Require Import BaseLemmas TallyLemmas RunsModel RunsSpec.
Open Scope N_scope.

Lemma blocks_cons : forall rel x xs, exists b bs, blocks rel x xs = b :: bs.
Proof.
  intros rel x xs. revert x. induction xs as [|y r IH]; intro x; cbn [blocks]; [eauto|].
  destruct (IH y) as (b & bs & ->). destruct (rel x y); eauto.
Qed.

(** adding an element at the end *)
Lemma blocks_snoc : forall rel xs x y, exists bs b,
  blocks rel x xs = bs ++ [b] /\ b <> [] /\
  blocks rel x (xs ++ [y]) = (if rel (last xs x) y then bs ++ [b ++ [y]] else bs ++ [b; [y]]).
Proof.
  intros rel. induction xs as [|z r IH]; intros x y.
  - exists [], [x]. split; [reflexivity|]. split; [discriminate|]. cbn. destruct (rel x y); reflexivity.
  - destruct (IH z y) as (bs & b & E1 & Nb & E2). cbn [app blocks].
    assert (El : last (z :: r) x = last r z) by (clear; revert z; induction r as [|a r IH]; intro z; [reflexivity|]; cbn [last] in *; destruct r; auto).
    rewrite El, E1, E2. clear El.
    destruct bs as [|b0 bs].
    + cbn [app]. destruct (rel x z).
      * exists [], (x :: b). split; [reflexivity|]. split; [discriminate|]. destruct (rel (last r z) y); reflexivity.
      * exists [[x]], b. split; [reflexivity|]. split; [exact Nb|]. destruct (rel (last r z) y); reflexivity.
    + cbn [app]. destruct (rel x z).
      * exists ((x :: b0) :: bs), b. split; [reflexivity|]. split; [exact Nb|]. destruct (rel (last r z) y); reflexivity.
      * exists ([x] :: b0 :: bs), b. split; [reflexivity|]. split; [exact Nb|]. destruct (rel (last r z) y); reflexivity.
Qed.

Lemma blocks_concat : forall rel xs x, concat (blocks rel x xs) = x :: xs.
Proof.
  intros rel. induction xs as [|y r IH]; intro x; [reflexivity|]. cbn [blocks].
  specialize (IH y). destruct (blocks rel y r) as [|b bs]; [discriminate|].
  destruct (rel x y); cbn [concat app] in *; rewrite IH; reflexivity.
Qed.

Definition tallied (t : list N) (bs : list (list N)) : Prop := length t = 6%nat /\ tallies t (map run_bin bs).

Definition rinv (first : N) (pre : list N) (s : rstate) : Prop :=
  (exists bs b, blocks increases first pre = bs ++ [b] /\ b <> [] /\ tallied (r_up s) bs /\
     r_ucount s = N.of_nat (Nat.min (length b) 6)) /\
  (exists bs b, blocks falls first pre = bs ++ [b] /\ b <> [] /\ tallied (r_down s) bs /\
     r_dcount s = N.of_nat (Nat.min (length b) 6)).

Lemma snoc_inj : forall A (a b : list A) x y, a ++ [x] = b ++ [y] -> a = b /\ x = y.
Proof. intros. apply app_inj_tail. assumption. Qed.

Lemma bump_block : forall t bs b c, tallied t bs -> b <> [] -> c = N.of_nat (Nat.min (length b) 6) ->
  exists t', bump t (Z.of_N c - 1) = Ok t' /\ tallied t' (bs ++ [b]).
Proof.
  intros t bs b c [L T] Nb ->. assert (0 < length b)%nat by (destruct b; [congruence|cbn; lia]).
  destruct (tallies_bump t _ (run_bin b) T) as (t' & E & L' & T').
  { unfold run_bin. lia. }
  exists t'. split.
  - rewrite <- E. f_equal. unfold run_bin. lia.
  - split; [lia|]. rewrite map_app. exact T'.
Qed.

(** one comparison with next element y *)
Lemma run_step_ok : forall first pre s y, rinv first pre s ->
  exists s', run_step (last pre first <? y) s = Ok s' /\ rinv first (pre ++ [y]) s'.
Proof.
  intros first pre s y ((bu & b & Eu & Nu & Tu & Cu) & (bd & d & Ed & Nd & Td & Cd)).
  destruct (blocks_snoc increases pre first y) as (bu' & b' & Eu' & _ & Xu).
  destruct (blocks_snoc falls pre first y) as (bd' & d' & Ed' & _ & Xd).
  rewrite Eu in Eu'. apply snoc_inj in Eu'. destruct Eu' as [<- <-].
  rewrite Ed in Ed'. apply snoc_inj in Ed'. destruct Ed' as [<- <-].
  unfold rinv. rewrite Xu, Xd. unfold run_step, increases, falls.
  destruct (N.ltb_spec (last pre first) y) as [H|H].
  - replace (y <=? last pre first) with false by lia.
    destruct (bump_block _ _ d _ Td Nd Cd) as (t & E & T). rewrite E. cbn [bind].
    eexists. split; [reflexivity|]. cbn [r_up r_down r_ucount r_dcount]. split.
    + exists bu, (b ++ [y]). split; [reflexivity|]. split; [destruct b; discriminate|]. split; [exact Tu|].
      rewrite Cu, app_length. cbn [length]. destruct (N.ltb_spec 6 (N.of_nat (Nat.min (length b) 6) + 1)); lia.
    + exists (bd ++ [d]), [y]. split; [rewrite <- app_assoc; reflexivity|]. split; [discriminate|]. split; [exact T|]. reflexivity.
  - replace (y <=? last pre first) with true by lia.
    destruct (bump_block _ _ b _ Tu Nu Cu) as (t & E & T). rewrite E. cbn [bind].
    eexists. split; [reflexivity|]. cbn [r_up r_down r_ucount r_dcount]. split.
    + exists (bu ++ [b]), [y]. split; [rewrite <- app_assoc; reflexivity|]. split; [discriminate|]. split; [exact T|]. reflexivity.
    + exists bd, (d ++ [y]). split; [reflexivity|]. split; [destruct d; discriminate|]. split; [exact Td|].
      rewrite Cd, app_length. cbn [length]. destruct (N.ltb_spec 6 (N.of_nat (Nat.min (length d) 6) + 1)); lia.
Qed.

Lemma last_snoc : forall (l : list N) y d, last (l ++ [y]) d = y.
Proof. induction l as [|a l IH]; intros y d; [reflexivity|]. cbn [app last]. rewrite IH. destruct l; reflexivity. Qed.

Lemma run_loop_ok : forall first rest pre s next, rinv first pre s ->
  exists s', run_loop rest (last pre first) next s = Ok (s', last rest next) /\ rinv first (pre ++ rest) s'.
Proof.
  intros first. induction rest as [|x rest IH]; intros pre s next I; cbn [run_loop].
  - exists s. rewrite app_nil_r. auto.
  - destruct (run_step_ok first pre s x I) as (s1 & E & I1). rewrite E. cbn [bind].
    destruct (IH (pre ++ [x]) s1 x I1) as (s2 & E2 & I2).
    rewrite last_snoc in E2. exists s2. rewrite E2. split.
    + f_equal. f_equal. clear. revert x. induction rest as [|a r IH]; intro x; [reflexivity|].
      cbn [last] in *. destruct r; auto.
    + rewrite <- app_assoc in I2. exact I2.
Qed.

Lemma removelast_snoc : forall A (l : list A) a, removelast (l ++ [a]) = l.
Proof. intros. apply removelast_last. Qed.

Lemma count_runs_ok : forall first rest,
  exists up down, count_runs first rest = Ok (up, down) /\
    let rose := first <? last rest 0 in
    tallied up (if rose then removelast (blocks increases first rest) else blocks increases first rest) /\
    tallied down (if rose then blocks falls first rest else removelast (blocks falls first rest)).
Proof.
  intros first rest. unfold count_runs.
  set (s0 := {| r_up := _; r_down := _; r_ucount := _; r_dcount := _ |}).
  assert (I0 : rinv first [] s0).
  { split; exists [], [first]; (split; [reflexivity|]; split; [discriminate|]; split; [|reflexivity]);
      split; try reflexivity; apply (tallies_nil 6). }
  destruct (run_loop_ok first rest [] s0 0 I0) as (s & E & I). cbn [last app] in E, I. rewrite E. cbn [bind].
  destruct I as ((bu & b & Eu & Nu & Tu & Cu) & (bd & d & Ed & Nd & Td & Cd)).
  unfold run_step. rewrite Eu, Ed, !removelast_snoc.
  destruct (first <? last rest 0).
  - destruct (bump_block _ _ d _ Td Nd Cd) as (t & -> & T). cbn [bind r_up r_down].
    eexists _, _. split; [reflexivity|]. split; assumption.
  - destruct (bump_block _ _ b _ Tu Nu Cu) as (t & -> & T). cbn [bind r_up r_down].
    eexists _, _. split; [reflexivity|]. split; assumption.
Qed.

(** number of blocks: one more than the steps that break them *)
Lemma blocks_count : forall rest first,
  (length (blocks increases first rest) + length (blocks falls first rest) = length rest + 2)%nat.
Proof.
  induction rest as [|y r IH]; intro x; [reflexivity|]. specialize (IH y). cbn [blocks].
  destruct (blocks_cons increases y r) as (b & bs & E1). destruct (blocks_cons falls y r) as (d & ds & E2).
  rewrite E1, E2 in *. unfold increases at 1, falls at 1.
  destruct (N.ltb_spec x y), (N.leb_spec y x); try lia; cbn [length] in *; lia.
Qed.
