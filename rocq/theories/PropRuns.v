(** Theorems C37, C56: diehard_runs. *)
From Verif Require Import BaseLemmas TallyLemmas RunsModel RunsSpec RunsLemmas.
Open Scope N_scope.

(** [blocks] cuts the sequence into pieces and loses nothing. *)
Lemma blocks_partition : forall rel first rest, concat (blocks rel first rest) = first :: rest.
Proof. intros. apply blocks_concat. Qed.

(** For every sequence of numbers (tsamples of them, at least two), the two
    tables count the maximal rising and the maximal non-rising blocks by length
    (six and more together); of the last rising and the last falling block one
    is left out, the rising one if the sequence ends above its first number and
    the falling one otherwise.  Altogether tsamples runs are counted, one per
    comparison. *)
Theorem C37_runs : forall first rest, rest <> [] ->
  exists up down, count_runs first rest = Ok (up, down) /\
    length up = 6%nat /\ length down = 6%nat /\
    (if first <? last rest first
     then tallies up (map run_bin (removelast (blocks increases first rest))) /\
          tallies down (map run_bin (blocks falls first rest))
     else tallies up (map run_bin (blocks increases first rest)) /\
          tallies down (map run_bin (removelast (blocks falls first rest)))) /\
    total up + total down = N.of_nat (length (first :: rest)).
Proof.
  intros first rest Ne. destruct (count_runs_ok first rest) as (up & down & E & H). cbn zeta in H.
  assert (El : last rest 0 = last rest first).
  { clear - Ne. induction rest as [|a r IH]; [congruence|]. destruct r; [reflexivity|]. apply IH. discriminate. }
  rewrite El in H. exists up, down. split; [exact E|].
  pose proof (blocks_count rest first) as C.
  destruct (blocks_snoc increases rest first 0) as (bu & b & Eu & _ & _).
  destruct (blocks_snoc falls rest first 0) as (bd & d & Ed & _ & _).
  rewrite Eu, Ed in *. rewrite !removelast_snoc in *. rewrite !app_length in C. cbn [length] in C.
  destruct (first <? last rest first); destruct H as [[L1 T1] [L2 T2]];
    (split; [exact L1|]; split; [exact L2|]; split; [split; assumption|]);
    rewrite (tallies_total _ _ T1), (tallies_total _ _ T2), ?map_length, ?app_length; cbn [length]; lia.
Qed.
Example C37_ex : count_runs 3 [5; 9; 4; 4; 1; 7; 2] = Ok ([3; 1; 1; 0; 0; 0], [2; 0; 0; 1; 0; 0]) /\
  blocks increases 3 [5; 9; 4; 4; 1; 7; 2] = [[3; 5; 9]; [4]; [4]; [1; 7]; [2]].
Proof. split; vm_compute; reflexivity. Qed.

(** The comparison that closes the sequence is made the wrong way round: taking
    the sequence as a cycle, the step from the last number back to the first is
    an increase when the first is larger; the program counts it as one when it
    is smaller.  So a rising sequence leaves no rising run in the table. *)
Fixpoint rising (first : N) (rest : list N) : Prop :=
  match rest with [] => True | x :: r => first < x /\ rising x r end.

Lemma rising_last : forall rest first, rising first rest -> rest <> [] -> first < last rest first.
Proof.
  induction rest as [|x r IH]; intros first R N; [congruence|]. destruct R as [A R].
  destruct r as [|y r]; [exact A|]. specialize (IH x R ltac:(discriminate)).
  change (last (x :: y :: r) first) with (last (y :: r) first).
  replace (last (y :: r) first) with (last (y :: r) x); [lia|].
  clear. revert y. induction r as [|z r IH]; intro y; [reflexivity|]. apply (IH z).
Qed.

Lemma rising_blocks : forall rest first, rising first rest -> blocks increases first rest = [first :: rest].
Proof.
  induction rest as [|x r IH]; intros first R; [reflexivity|]. destruct R as [A R].
  cbn [blocks]. rewrite (IH x R). unfold increases. replace (first <? x) with true by lia. reflexivity.
Qed.

Theorem C56_closing_step_refuted : forall first rest, rest <> [] -> rising first rest ->
  exists down, count_runs first rest = Ok ([0; 0; 0; 0; 0; 0], down).
Proof.
  intros first rest Ne R. destruct (count_runs_ok first rest) as (up & down & E & H). cbn zeta in H.
  assert (El : last rest 0 = last rest first).
  { clear - Ne. induction rest as [|a r IH]; [congruence|]. destruct r; [reflexivity|]. apply IH. discriminate. }
  rewrite El in H. pose proof (rising_last rest first R Ne) as Hl.
  replace (first <? last rest first) with true in H by lia.
  destruct H as [[L [_ T]] _]. rewrite rising_blocks in T by exact R. cbn [removelast map countp] in T.
  exists down. rewrite E. do 2 f_equal.
  do 7 (destruct up as [|? up]; cbn [length] in L; try discriminate L).
  pose proof (T 0%nat ltac:(cbn; lia)) as T0. pose proof (T 1%nat ltac:(cbn; lia)) as T1.
  pose proof (T 2%nat ltac:(cbn; lia)) as T2. pose proof (T 3%nat ltac:(cbn; lia)) as T3.
  pose proof (T 4%nat ltac:(cbn; lia)) as T4. pose proof (T 5%nat ltac:(cbn; lia)) as T5.
  cbn [nth] in T0, T1, T2, T3, T4, T5. subst. reflexivity.
Qed.
Example C56_ex : rising 1 [2; 3; 4] /\ count_runs 1 [2; 3; 4] = Ok ([0; 0; 0; 0; 0; 0], [4; 0; 0; 0; 0; 0]).
Proof. split; [cbn; lia|vm_compute; reflexivity]. Qed.

Print Assumptions C37_runs.
Print Assumptions C56_closing_step_refuted.
