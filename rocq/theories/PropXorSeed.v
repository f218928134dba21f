(** C159: seeding the XOR supergenerator (rng_XOR.c). *)
From Coq Require Import NArith Lia List.
From Verif Require Import Base BaseLemmas XorSeedModel.
Import ListNotations.
Open Scope N_scope.

Section XorSeed.
Variables (types : list (option kind)) (gnumbs : list nat) (gv : nat) (master : N -> nat -> N).
(** what -g chose exists and is an ordinary generator *)
Definition ordinary (slot : nat) : Prop := nth_error types slot = Some (Some Plain).
Definition component (i slot : nat) : Prop := (1 <= i < gv)%nat /\ nth_error gnumbs i = Some slot.
(** the generators asked for with -g after the supergenerator, the i-th with output
    number i-1 of the seeding generator as its seed *)
Definition wanted (s : N) : list (nat * N) := map (fun i => (nth i gnumbs O, master (s mod 2 ^ 32) (i - 1)%nat)) (seq 1 (gv - 1)).

Lemma aget_some {A} (l : list A) i x : nth_error l i = Some x -> aget l (Z.of_nat i) = Ok x.
Proof. intro H. unfold aget. destruct (Z.ltb_spec (Z.of_nat i) 0); [lia|]. rewrite Nat2Z.id, H. reflexivity. Qed.

Lemma loop_ok alloc setg s : forall n i, (forall j, (i <= j < i + n)%nat -> exists slot, nth_error gnumbs j = Some slot /\
    alloc slot = Ok 1%nat /\ forall sd, setg slot sd = Ok O) ->
  set_loop gnumbs master alloc setg s n i = Ok (map (fun j => (nth j gnumbs O, master s (j - 1)%nat)) (seq i n), n).
Proof.
  induction n as [|n IH]; intros i H; [reflexivity|]. cbn [set_loop seq map].
  destruct (H i ltac:(lia)) as (slot & E & A & S). rewrite (aget_some _ _ _ E). cbn [bind]. rewrite A. cbn [bind]. rewrite S. cbn [bind].
  rewrite IH by (intros j J; apply H; lia). cbn [bind fst snd]. rewrite (nth_error_nth _ _ O E). reflexivity.
Qed.

Lemma gset_ok fuel s : ordinary 14 -> (forall i, (1 <= i < gv)%nat -> exists slot, component i slot /\ ordinary slot) -> (0 < gv)%nat ->
  gset types gnumbs gv master (S (S fuel)) Super s = Ok (wanted s, gv).
Proof.
  intros M C G. cbn [gset]. rewrite (aget_some _ _ _ M). cbn [bind fst snd].
  rewrite loop_ok.
  - cbn [bind fst snd]. unfold wanted, w32. do 2 f_equal. lia.
  - intros j J. destruct (C j ltac:(lia)) as (slot & (_ & E) & O). exists slot. rewrite (aget_some _ _ _ O). auto.
Qed.

(** C159: if all of them exist, the supergenerator refers to exactly the
    generators asked for, freshly seeded, whatever it was set to before; only
    the low 32 bits of the last seed matter. *)
Theorem C159_seeded : forall fuel seeds s, ordinary 14 ->
  (forall i, (1 <= i < gv)%nat -> exists slot, component i slot /\ ordinary slot) -> (0 < gv)%nat -> (2 <= fuel)%nat ->
  exists n, supergenerator types gnumbs gv master fuel (seeds ++ [s]) = Ok (wanted s, n) /\
  (* every set of generators ever made is still allocated *)
  n = ((length seeds + 2) * gv)%nat.
Proof.
  intros fuel seeds s M C G F. destruct fuel as [|[|fuel]]; try lia. pose proof (fun s => gset_ok fuel s M C G) as E.
  unfold supergenerator. rewrite E. cbn [bind].
  assert (H : forall seeds w n, life types gnumbs gv master (S (S fuel)) (seeds ++ [s]) (w, n) = Ok (wanted s, (n + (length seeds + 1) * gv)%nat)).
  { clear seeds. induction seeds as [|x seeds IH]; intros w n; cbn [app life length].
    - rewrite E. cbn [bind life fst snd]. do 2 f_equal. lia.
    - rewrite E. cbn [bind fst snd]. rewrite IH. do 2 f_equal. lia. }
  eexists. split; [apply H|]. lia.
Qed.
Theorem C159_leak_refuted : forall fuel seeds s, ordinary 14 ->
  (forall i, (1 <= i < gv)%nat -> exists slot, component i slot /\ ordinary slot) -> (0 < gv)%nat -> (2 <= fuel)%nat ->
  exists w n, supergenerator types gnumbs gv master fuel (seeds ++ [s]) = Ok (w, n) /\
  (n - (length w + 1) = (length seeds + 1) * gv)%nat.
Proof.
  intros fuel seeds s M C G F. destruct (C159_seeded fuel seeds s M C G F) as (n & E & ->). exists (wanted s). eexists. split; [exact E|].
  unfold wanted. rewrite map_length, seq_length. nia.
Qed.

(** In the loop, generators before the [k]-th are fine and the [k]-th fails. *)
Lemma loop_fails {E : outcome made} alloc setg s : forall k n i slot, (k < n)%nat ->
  (forall j, (i <= j < i + k)%nat -> exists slot, nth_error gnumbs j = Some slot /\ alloc slot = Ok 1%nat /\ forall sd, setg slot sd = Ok O) ->
  nth_error gnumbs (i + k) = Some slot ->
  (forall f, bind (alloc slot) f = E) -> (forall x, E <> Ok x) -> (forall f : made -> outcome made, bind E f = E) ->
  set_loop gnumbs master alloc setg s n i = E.
Proof.
  induction k as [|k IH]; intros n i slot K H N B NE BE; (destruct n as [|n]; [lia|]); cbn [set_loop].
  - rewrite Nat.add_0_r in N. rewrite (aget_some _ _ _ N). cbn [bind]. apply B.
  - destruct (H i ltac:(lia)) as (sl & E1 & A & S). rewrite (aget_some _ _ _ E1). cbn [bind]. rewrite A. cbn [bind]. rewrite S. cbn [bind].
    rewrite (IH n (Datatypes.S i) slot); auto; try lia.
    + intros j J. apply H. lia.
    + replace (Datatypes.S i + k)%nat with (i + Datatypes.S k)%nat by lia. exact N.
Qed.

(** Refuted: a number that is not in the table is not refused, the program
    crashes. *)
Theorem C159_missing_refuted : forall fuel seeds k slot, ordinary 14 -> (1 <= k < gv)%nat ->
  (forall i, (1 <= i < k)%nat -> exists slot, component i slot /\ ordinary slot) ->
  component k slot -> nth_error types slot = Some None -> (2 <= fuel)%nat ->
  supergenerator types gnumbs gv master fuel seeds = UB "null generator type".
Proof.
  intros fuel seeds k slot M K C N T F. destruct fuel as [|[|fuel]]; try lia. unfold supergenerator.
  replace (gset types gnumbs gv master (S (S fuel)) Super 0) with (@UB made "null generator type"); [reflexivity|].
  cbn [gset]. rewrite (aget_some _ _ _ M). cbn [bind fst snd].
  rewrite (@loop_fails (UB "null generator type") _ _ _ (k - 1) (gv - 1) 1 slot); auto; try lia.
  - intros j J. destruct (C j ltac:(lia)) as (sl & (_ & E) & O). exists sl. rewrite (aget_some _ _ _ O). auto.
  - replace (1 + (k - 1))%nat with k by lia. apply N.
  - intro f. rewrite (aget_some _ _ _ T). reflexivity.
  - intros x E. discriminate E.
Qed.
(** Refuted: the supergenerator as a component of itself is not refused either;
    the allocation never ends. *)
Theorem C159_nested_refuted : forall fuel seeds k slot, ordinary 14 -> (1 <= k < gv)%nat ->
  (forall i, (1 <= i < k)%nat -> exists slot, component i slot /\ ordinary slot) ->
  component k slot -> nth_error types slot = Some (Some Super) ->
  supergenerator types gnumbs gv master fuel seeds = OutOfFuel.
Proof.
  intros fuel seeds k slot M K C N T. unfold supergenerator.
  replace (gset types gnumbs gv master fuel Super 0) with (@OutOfFuel made); [reflexivity|]. generalize 0. symmetry. revert n.
  induction fuel as [|fuel IH]; intro s; [reflexivity|]. destruct fuel as [|fuel].
  - cbn [gset]. rewrite (aget_some _ _ _ M). reflexivity.
  - remember (S fuel) as f eqn:Ef. cbn [gset]. rewrite (aget_some _ _ _ M). cbn [bind].
    assert (P : forall s, gset types gnumbs gv master f Plain s = Ok ([], O)) by (intro; subst f; reflexivity).
    rewrite !P. cbn [bind fst snd].
    rewrite (@loop_fails OutOfFuel _ _ _ (k - 1) (gv - 1) 1 slot); auto; try lia.
    + intros j J. destruct (C j ltac:(lia)) as (sl & (_ & E) & O). exists sl. rewrite (aget_some _ _ _ O). cbn [bind].
      split; [exact E|]. rewrite P. split; [reflexivity|]. intro sd. rewrite P. reflexivity.
    + replace (1 + (k - 1))%nat with k by lia. apply N.
    + intro g. rewrite (aget_some _ _ _ T). cbn [bind]. rewrite IH. reflexivity.
    + intros x E. discriminate E.
Qed.
End XorSeed.

(** -g 15 -g 3 -g 14 in a table of 16 with the supergenerator last and slot 5 empty *)
Definition table16 : list (option kind) := repeat (Some Plain) 5 ++ [None] ++ repeat (Some Plain) 9 ++ [Some Super].
Example C159_ex : ordinary table16 14 /\
  (forall i, (1 <= i < 3)%nat -> exists slot, component [15; 3; 14]%nat 3 i slot /\ ordinary table16 slot) /\
  supergenerator table16 [15; 3; 14]%nat 3 (fun s k => s + N.of_nat k) 2 [7; 9] = Ok ([(3%nat, 9); (14%nat, 10)], 9%nat) /\
  supergenerator table16 [15; 5]%nat 2 (fun s k => s + N.of_nat k) 2 [7; 9] = UB "null generator type" /\
  supergenerator table16 [15; 15]%nat 2 (fun s k => s + N.of_nat k) 20 [7; 9] = OutOfFuel.
Proof.
  split; [reflexivity|]. split.
  - intros i I. destruct i as [|[|[|i]]]; try lia; eexists; (split; [split; [lia|reflexivity]|reflexivity]).
  - vm_compute. repeat split.
Qed.

Print Assumptions C159_seeded.
Print Assumptions C159_leak_refuted.
Print Assumptions C159_missing_refuted.
Print Assumptions C159_nested_refuted.
