(** Theorems C39, C58, C59: marsaglia_tsang_gcd. *)
From Verif Require Import BaseLemmas TallyLemmas GcdModel GcdSpec GcdLemmas.
Open Scope N_scope.

(** ** C39 *)

(** For every pair of nonzero 32-bit numbers the loop ends with their gcd and
    the number of divisions made, which is at most 64. *)
Theorem C39_euclid : forall u v, u <> 0 -> v <> 0 -> u < 2 ^ 32 -> v < 2 ^ 32 ->
  exists d, euclid 65 u v 0 = Ok (N.gcd u v, d) /\ divisions u v d /\ d <= 64.
Proof. intros u v Hu H Bu B. destruct (euclid_ok u v H B) as (d & D & L & E). exists d. repeat split; auto; lia. Qed.
Example C39_euclid_ex : euclid 65 2971215073 1836311903 0 = Ok (1, 45) /\ euclid 65 84 30 0 = Ok (6, 3) /\
  divisions 84 30 3.
Proof.
  split; [vm_compute; reflexivity|]. split; [vm_compute; reflexivity|].
  change 3 with (1 + 1 + 1). do 2 (apply remainder_left; [discriminate|vm_compute; discriminate|]).
  apply exact_division; [discriminate|reflexivity].
Qed.

(** The cell of the first table a pair belongs to: its gcd, everything from
    [n - 1] on together. *)
Definition cell (n : N) (p : N * N) : Z := Z.of_N (N.min (N.gcd (fst p) (snd p)) (n - 1)).

(** A call that finds its table empty or of the size in use counts every pair
    of nonzero numbers once in each table. *)
Theorem C39_tables : forall g size ps c c' st,
  (forall i, g i < 2 ^ 32) -> pairs g c ps c' ->
  let n := if snd st =? 0 then size (N.of_nat (length ps)) else snd st in
  0 < n < 2 ^ 32 -> (fst st = None \/ exists l, fst st = Some l /\ N.of_nat (length l) = n) ->
  exists gcd ktbl ds, forall fuel, (c' - c <= fuel)%nat ->
    gcd_call g fuel size (length ps) st c = Ok (gcd, ktbl, c', n) /\
    N.of_nat (length gcd) = n /\ length ktbl = 41%nat /\
    Forall2 (fun p d => divisions (fst p) (snd p) d) ps ds /\
    tallies gcd (map (cell n) ps) /\ tallies ktbl (map (fun d => Z.of_N (N.min d 40)) ds) /\
    total gcd = N.of_nat (length ps) /\ total ktbl = N.of_nat (length ps).
Proof.
  intros g size ps c c' st Bg P n Hn Hst.
  assert (Et : gcd_table size (N.of_nat (length ps)) st = Ok (repeat 0 (N.to_nat n), n)).
  { unfold gcd_table. destruct st as [mem gs]. cbn [fst snd] in *. fold n.
    assert (Ln : length (match mem with None => repeat 0 (N.to_nat n) | Some l => l end) = N.to_nat n).
    { destruct Hst as [->|(l & -> & L)]; [apply repeat_length|lia]. }
    rewrite Ln. replace (N.of_nat (N.to_nat n) <? n) with false by lia.
    do 2 f_equal. rewrite skipn_all2 by lia. apply app_nil_r. }
  assert (G : forall fuel, (c' - c <= fuel)%nat -> exists gcd ktbl ds,
    iter_o (length ps) (gcd_sample g fuel n) (repeat 0 (N.to_nat n), repeat 0 41, c) = Ok (gcd, ktbl, c') /\
    length gcd = N.to_nat n /\ length ktbl = 41%nat /\
    Forall2 (fun p d => divisions (fst p) (snd p) d) ps ds /\
    tallies gcd (map (cell n) ps) /\ tallies ktbl (map (fun d => Z.of_N (N.min d 40)) ds)).
  { intros fuel F.
    destruct (samples_ok g fuel n ps c c' ltac:(lia) ltac:(lia) Bg P F (repeat 0 (N.to_nat n)) (repeat 0 41) [] [])
      as (gcd & ktbl & ds & E & L & Lk & F2 & T & Tk).
    { rewrite repeat_length. lia. }
    { apply tallies_nil. }
    { reflexivity. }
    { apply (tallies_nil 41). }
    rewrite repeat_length in L. exists gcd, ktbl, ds. cbn [app] in T, Tk.
    split; [exact E|]. split; [exact L|]. split; [exact Lk|]. split; [exact F2|]. split; [exact T|exact Tk]. }
  destruct (G (c' - c)%nat (le_n _)) as (gcd & ktbl & ds & E & L & Lk & F2 & T & Tk).
  exists gcd, ktbl, ds. intros fuel F.
  destruct (G fuel F) as (gcd' & ktbl' & ds' & E' & L' & Lk' & F2' & T' & Tk').
  assert (ds = ds') as <-.
  { clear - F2 F2'. revert ds' F2'. induction F2 as [|p d ps ds D F2 IH]; intros ds' F2'; inversion F2'; subst; [reflexivity|].
    f_equal; [eapply divisions_unique; eassumption|apply IH; assumption]. }
  assert (gcd = gcd') as <-.
  { apply (nth_ext gcd gcd' 0 0); [congruence|]. intros k Hk. destruct T as [_ T], T' as [_ T'].
    rewrite (T k Hk), T' by congruence. reflexivity. }
  assert (ktbl = ktbl') as <-.
  { apply (nth_ext ktbl ktbl' 0 0); [congruence|]. intros k Hk. destruct Tk as [_ Tk], Tk' as [_ Tk'].
    rewrite (Tk k Hk), Tk' by congruence. reflexivity. }
  unfold gcd_call. rewrite Et. cbn [bind]. rewrite E'. cbn [bind].
  split; [reflexivity|]. split; [lia|]. split; [exact Lk|]. split; [exact F2|]. split; [exact T|]. split; [exact Tk|].
  rewrite (tallies_total _ _ T), (tallies_total _ _ Tk), !map_length.
  split; [reflexivity|]. clear - F2. induction F2; cbn [length] in *; lia.
Qed.
Definition ex_g (i : nat) : N := nth i [84; 30; 0; 12; 0; 0; 18; 100; 75] 1.
Example C39_ex : gcd_call ex_g 20 (fun _ => 10) 3 (None, 0) 0
  = Ok ([0; 0; 0; 0; 0; 0; 2; 0; 0; 1], [0; 0; 1; 2] ++ repeat 0 37, 9%nat, 10) /\
  pairs ex_g 0 [(84, 30); (12, 18); (100, 75)] 9.
Proof.
  split; [vm_compute; reflexivity|].
  apply next_pair with 1%nat 2%nat.
  { exists 0%nat. repeat split; [intros; lia|discriminate]. }
  { exists 0%nat. repeat split; [intros; lia|discriminate]. }
  apply next_pair with 4%nat 7%nat.
  { exists 1%nat. repeat split; [|discriminate]. intros [|i] Hi; [reflexivity|lia]. }
  { exists 2%nat. repeat split; [|discriminate]. intros [|[|i]] Hi; [reflexivity|reflexivity|lia]. }
  apply next_pair with 8%nat 9%nat.
  { exists 0%nat. repeat split; [intros; lia|discriminate]. }
  { exists 0%nat. repeat split; [intros; lia|discriminate]. }
  apply no_pair.
Qed.

(** ** C58: calling the test again with more samples *)

(** When the first call is made with so few samples (below 165) that the table
    has no cell, the empty table is kept and a later call with more samples
    clears memory beyond it. *)
Theorem C58_second_call_refuted : forall g fuel size t1 t2 c,
  size (N.of_nat t1) = 0 -> size (N.of_nat t2) <> 0 ->
  exists mem, gcd_table size (N.of_nat t1) (None, 0) = Ok (mem, 0) /\
  exists why, gcd_call g fuel size t2 (Some mem, 0) c = UB why.
Proof.
  intros g fuel size t1 t2 c H1 H2. exists [].
  unfold gcd_call, gcd_table. cbn beta iota. change (0 =? 0) with true. cbn iota. rewrite H1.
  split; [reflexivity|]. eexists. replace (N.of_nat (length (@nil N)) <? size (N.of_nat t2)) with true by (cbn [length]; lia).
  reflexivity.
Qed.
Example C58_ex : gcd_call ex_g 20 (fun t => t / 2) 4 (Some [], 0) 0 = UB "memset beyond the allocation".
Proof. reflexivity. Qed.

(** With no cells at all nothing is counted in the first table. *)
Lemma sample_no_cells : forall g fuel k c s, gcd_sample g fuel 0 ([], k, c) = Ok s -> fst (fst s) = [].
Proof.
  intros g fuel k c s. unfold gcd_sample. generalize (euclid 65) as eu. intros eu E.
  destruct (nonzero g fuel c) as [[u c1]| | |]; cbn [bind] in E; try discriminate.
  destruct (nonzero g fuel c1) as [[v c2]| | |]; cbn [bind] in E; try discriminate.
  destruct (eu u v 0) as [[d j]| | |]; cbn [bind] in E; try discriminate.
  revert E. generalize (if 0 <=? d then sub32 0 1 else d) as x. intros x E.
  assert (X : (x <? 0) = false) by (apply N.ltb_ge; lia). rewrite X in E. cbn [bind] in E.
  destruct (bump k _) as [k1| | |]; cbn [bind] in E; try discriminate. inversion E. reflexivity.
Qed.

Lemma iter_no_cells : forall g fuel n k c s, iter_o n (gcd_sample g fuel 0) ([], k, c) = Ok s -> fst (fst s) = [].
Proof.
  induction n; intros k c s E; cbn [iter_o] in E; [inversion E; reflexivity|].
  destruct (gcd_sample g fuel 0 ([], k, c)) as [[[a b] e]| | |] eqn:E1; cbn [bind] in E; try discriminate.
  apply sample_no_cells in E1. cbn in E1. subst a. eapply IHn; eassumption.
Qed.

Theorem C58_small_run_refuted : forall g fuel c gcd ktbl c' n,
  gcd_call g fuel (fun _ => 0) n (None, 0) c = Ok (gcd, ktbl, c', 0) -> gcd = [].
Proof.
  intros g fuel c gcd ktbl c' n. unfold gcd_call.
  assert (T : gcd_table (fun _ => 0) (N.of_nat n) (None, 0) = Ok ([], 0)) by reflexivity.
  rewrite T. cbn [bind]. pose proof (iter_no_cells g fuel n (repeat 0 41) c) as G.
  destruct (iter_o n (gcd_sample g fuel 0) ([], repeat 0 41, c)) as [[[a b] e]| | |]; cbn [bind]; try discriminate.
  specialize (G _ eq_refl). cbn in G. congruence.
Qed.
Example C58_small_ex : exists ktbl c', gcd_call ex_g 20 (fun _ => 0) 3 (None, 0) 0 = Ok ([], ktbl, c', 0).
Proof. eexists _, _. vm_compute. reflexivity. Qed.

(** ** C59: a generator that only returns zero *)
Theorem C59_zero_stream_refuted : forall fuel size tsamples st c, (0 < tsamples)%nat ->
  forall mem n, gcd_table size (N.of_nat tsamples) st = Ok (mem, n) ->
  gcd_call (fun _ => 0) fuel size tsamples st c = OutOfFuel.
Proof.
  intros fuel size t st c Ht mem n E. unfold gcd_call. rewrite E. cbn [bind].
  assert (Z : forall fuel c, nonzero (fun _ => 0) fuel c = OutOfFuel).
  { clear. induction fuel; intro c; [reflexivity|]. cbn [nonzero]. change (0 =? 0) with true. apply IHfuel. }
  destruct t; [lia|]. cbn [iter_o]. unfold gcd_sample at 1. rewrite Z. reflexivity.
Qed.
Example C59_ex : gcd_table (fun _ => 10) 3 (None, 0) = Ok (repeat 0 10, 10).
Proof. reflexivity. Qed.

Print Assumptions C39_euclid.
Print Assumptions C39_tables.
Print Assumptions C58_second_call_refuted.
Print Assumptions C58_small_run_refuted.
Print Assumptions C59_zero_stream_refuted.
