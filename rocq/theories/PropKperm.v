(** Theorems C34, C54, C55: diehard_operm5. *)
From Verif Require Import BaseLemmas TallyLemmas KpermModel KpermLemmas.
Open Scope Z_scope.

(** ** C34: the number of an ordering *)

(** The five values [kperm] looks at, oldest first, when [v] is a circular
    buffer whose oldest element is at [off]. *)
Definition window (v : list N) (off : nat) (i : nat) : N := nth ((i + off) mod 5) v 0%N.

(** [a] and [b] list their elements in the same relative order. *)
Definition same_order (a b : nat -> N) : Prop :=
  forall i j, (i < 5)%nat -> (j < 5)%nat -> ((a i < a j)%N <-> (b i < b j)%N).

(** For values below 2^31 the number lies in 0..119, and two tuples of distinct
    values have the same number exactly when they are in the same order. *)
Lemma seen_window : forall v off i, (window v (N.to_nat off) i < 2 ^ 31)%N ->
  seen v off i = Z.of_N (window v (N.to_nat off) i).
Proof. intros v off i H. unfold seen, s32, window in *. replace (_ <? _) with true by lia. reflexivity. Qed.

Definition distinct (a : nat -> N) : Prop :=
  forall i j, (i < 5)%nat -> (j < 5)%nat -> a i = a j -> i = j.

Lemma nth_seen : forall v off i, (i < 5)%nat -> nth i (map (seen v off) [0; 1; 2; 3; 4]%nat) 0 = seen v off i.
Proof. intros v off i H. do 5 (destruct i; [reflexivity|]). lia. Qed.

Lemma seen_nodup : forall v off,
  (forall i j, (i < 5)%nat -> (j < 5)%nat -> seen v off i = seen v off j -> i = j) ->
  NoDup (map (seen v off) [0; 1; 2; 3; 4]%nat).
Proof.
  intros v off D. apply (NoDup_nth _ 0). intros i j Hi Hj E. cbn [length map] in Hi, Hj.
  rewrite !nth_seen in E by assumption. apply D; assumption.
Qed.

Theorem C34_kperm : forall v off, length v = 5%nat -> (off < 5)%N ->
  (forall i, (i < 5)%nat -> (window v (N.to_nat off) i < 2 ^ 31)%N) -> distinct (window v (N.to_nat off)) ->
  (exists r, kperm v off = Ok r /\ 0 <= r < 120) /\
  forall v' off', length v' = 5%nat -> (off' < 5)%N ->
    (forall i, (i < 5)%nat -> (window v' (N.to_nat off') i < 2 ^ 31)%N) -> distinct (window v' (N.to_nat off')) ->
    (kperm v off = kperm v' off' <-> same_order (window v (N.to_nat off)) (window v' (N.to_nat off'))).
Proof.
  intros v off L H B D. destruct (kperm_ok v off L H) as (E & R). split; [exact R|].
  intros v' off' L' H' B' D'. destruct (kperm_ok v' off' L' H') as (E' & _). rewrite E, E'.
  rewrite loop_inj; [|reflexivity|reflexivity| |].
  - split.
    + intros [_ A] i j Hi Hj. pose proof (A j i Hj Hi) as X. rewrite !nth_seen in X by assumption.
      rewrite !seen_window in X by auto. lia.
    + intro S. split; [reflexivity|]. intros i j Hi Hj. cbn [length map] in Hi, Hj.
      rewrite !nth_seen by assumption. rewrite !seen_window by auto.
      pose proof (S j i Hj Hi) as X. lia.
  - apply seen_nodup. intros i j Hi Hj X. rewrite !seen_window in X by auto. apply D; auto. lia.
  - apply seen_nodup. intros i j Hi Hj X. rewrite !seen_window in X by auto. apply D'; auto. lia.
Qed.
Example C34_ex : kperm [50; 10; 40; 20; 30]%N 3 = Ok 62 /\ kperm [6; 9; 5; 8; 7]%N 0 = kperm [5; 8; 7; 6; 9]%N 3.
Proof. split; vm_compute; reflexivity. Qed.

(** All 120 numbers are taken. *)
Theorem C34_all_numbers : forall n, 0 <= n < 120 -> exists v, length v = 5%nat /\ kperm v 0 = Ok n.
Proof.
  intros n Hn.
  assert (G : forallb (fun n => existsb (fun v => match kperm (map Z.to_N v) 0 with Ok r => r =? Z.of_nat n | _ => false end) orderings) (seq 0 120) = true)
    by (vm_compute; reflexivity).
  rewrite forallb_forall in G. specialize (G (Z.to_nat n)).
  assert (I : In (Z.to_nat n) (seq 0 120)) by (apply in_seq; lia). specialize (G I).
  apply existsb_exists in G. destruct G as (w & Iw & E). exists (map Z.to_N w).
  split.
  - rewrite map_length. unfold orderings in Iw. apply filter_In in Iw. destruct Iw as [Iw _].
    assert (T : forall n l, In l (tuples n) -> length l = n).
    { clear. induction n; intros l I; [destruct I as [<-|[]]; reflexivity|].
      cbn [tuples] in I. apply in_flat_map in I. destruct I as (l0 & I0 & I).
      apply in_map_iff in I. destruct I as (x & <- & _). cbn [length]. rewrite (IHn l0 I0). reflexivity. }
    exact (T 5%nat w Iw).
  - destruct (kperm (map Z.to_N w) 0) as [r| | |]; try discriminate. f_equal. lia.
Qed.

(** ** C54: values of 2^31 and more *)

(** A 32-bit generator's large values become negative in kperm's copy, so the
    number does not follow the order of the values drawn. *)
Theorem C54_full_range_order_refuted : exists v v',
  length v = 5%nat /\ length v' = 5%nat /\ distinct (window v 0) /\ distinct (window v' 0) /\
  (forall i, (window v 0 i < 2 ^ 32)%N) /\ (forall i, (window v' 0 i < 2 ^ 32)%N) /\
  same_order (window v 0) (window v' 0) /\ kperm v 0 <> kperm v' 0.
Proof.
  exists [1; 2; 3; 4; 5]%N, [1; 2; 3; 4; 2147483648]%N.
  split; [reflexivity|]. split; [reflexivity|].
  assert (F : forall i, (i < 5)%nat -> i = 0%nat \/ i = 1%nat \/ i = 2%nat \/ i = 3%nat \/ i = 4%nat) by lia.
  split; [|split; [|split; [|split; [|split]]]].
  - intros i j Hi Hj. destruct (F i Hi) as [->|[->|[->|[->| ->]]]], (F j Hj) as [->|[->|[->|[->| ->]]]]; vm_compute; congruence.
  - intros i j Hi Hj. destruct (F i Hi) as [->|[->|[->|[->| ->]]]], (F j Hj) as [->|[->|[->|[->| ->]]]]; vm_compute; congruence.
  - intro i. unfold window. assert ((i + 0) mod 5 < 5)%nat as Hm by (apply Nat.mod_upper_bound; lia).
    destruct (F _ Hm) as [->|[->|[->|[->| ->]]]]; reflexivity.
  - intro i. unfold window. assert ((i + 0) mod 5 < 5)%nat as Hm by (apply Nat.mod_upper_bound; lia).
    destruct (F _ Hm) as [->|[->|[->|[->| ->]]]]; reflexivity.
  - intros i j Hi Hj. destruct (F i Hi) as [->|[->|[->|[->| ->]]]], (F j Hj) as [->|[->|[->|[->| ->]]]]; vm_compute; split; congruence.
  - vm_compute. discriminate.
Qed.

(** What holds for the full range: the order compared is that of the values
    read as signed 32-bit numbers (so large values come first). *)
Theorem C54_signed_order : forall v off v' off', length v = 5%nat -> (off < 5)%N -> length v' = 5%nat -> (off' < 5)%N ->
  (forall i, (i < 5)%nat -> (window v (N.to_nat off) i < 2 ^ 32)%N) -> distinct (window v (N.to_nat off)) ->
  (forall i, (i < 5)%nat -> (window v' (N.to_nat off') i < 2 ^ 32)%N) -> distinct (window v' (N.to_nat off')) ->
  (exists r, kperm v off = Ok r /\ 0 <= r < 120) /\
  (kperm v off = kperm v' off' <->
   same_order (fun i => (window v (N.to_nat off) i + 2 ^ 31) mod 2 ^ 32)%N
              (fun i => (window v' (N.to_nat off') i + 2 ^ 31) mod 2 ^ 32)%N).
Proof.
  intros v off v' off' L H L' H' B D B' D'.
  destruct (kperm_ok v off L H) as (E & R). destruct (kperm_ok v' off' L' H') as (E' & _).
  split; [exact R|]. rewrite E, E'.
  assert (S : forall v off i, (window v (N.to_nat off) i < 2 ^ 32)%N ->
    seen v off i = Z.of_N ((window v (N.to_nat off) i + 2 ^ 31) mod 2 ^ 32) - 2 ^ 31).
  { clear. intros v off i H. unfold seen, s32, window in *. set (x := nth _ v 0%N) in *.
    destruct (Z.ltb_spec (Z.of_N x) (2 ^ 31)) as [A|A].
    - rewrite N.mod_small by lia. lia.
    - replace (x + 2 ^ 31)%N with ((x - 2 ^ 31) + 1 * 2 ^ 32)%N by lia.
      rewrite N.mod_add by discriminate. rewrite N.mod_small by lia. lia. }
  assert (SD : forall v off, (forall i, (i < 5)%nat -> (window v (N.to_nat off) i < 2 ^ 32)%N) ->
    distinct (window v (N.to_nat off)) -> NoDup (map (seen v off) [0; 1; 2; 3; 4]%nat)).
  { clear - S. intros v off B D. apply seen_nodup. intros i j Hi Hj X.
    apply D; auto. pose proof (B i Hi). pose proof (B j Hj). unfold seen, s32 in X. unfold window in *.
    destruct (Z.ltb_spec (Z.of_N (nth ((i + N.to_nat off) mod 5) v 0%N)) (2 ^ 31)),
             (Z.ltb_spec (Z.of_N (nth ((j + N.to_nat off) mod 5) v 0%N)) (2 ^ 31)); lia. }
  rewrite loop_inj; [|reflexivity|reflexivity|apply SD; auto|apply SD; auto].
  split.
  - intros [_ A] i j Hi Hj. pose proof (A j i Hj Hi) as X. rewrite !nth_seen in X by assumption.
    rewrite !S in X by auto. lia.
  - intro Q. split; [reflexivity|]. intros i j Hi Hj. cbn [length map] in Hi, Hj.
    rewrite !nth_seen by assumption. rewrite !S by auto.
    pose proof (Q j i Hj Hi) as X. cbn beta in X. clear - X.
    generalize dependent ((window v (N.to_nat off) i + 2 ^ 31) mod 2 ^ 32)%N.
    generalize dependent ((window v (N.to_nat off) j + 2 ^ 31) mod 2 ^ 32)%N.
    generalize dependent ((window v' (N.to_nat off') i + 2 ^ 31) mod 2 ^ 32)%N.
    generalize dependent ((window v' (N.to_nat off') j + 2 ^ 31) mod 2 ^ 32)%N.
    intros. lia.
Qed.
Example C54_ex : kperm [1; 2; 3; 4; 2147483648]%N 0 = kperm [1; 2; 3; 4; 0]%N 0.
Proof. vm_compute. reflexivity. Qed.

(** ** C55: what operm5 counts *)

Lemma draw_nth : forall g n c i, (i < n)%nat -> nth i (draw g n c) 0%N = g (c + i)%nat.
Proof.
  induction n; intros c i H; [lia|]. destruct i; cbn [draw nth]; [f_equal; lia|].
  rewrite IHn by lia. f_equal. lia.
Qed.
Lemma draw_length : forall g n c, length (draw g n c) = n.
Proof. induction n; intro c; cbn; auto. Qed.

(** The number of the ordering of the five results of the generator from [c] on. *)
Definition ordering_at (g : nat -> N) (c : nat) : Z :=
  match kperm (draw g 5 c) 0 with Ok r => r | _ => -1 end.

Lemma ordering_at_ok : forall g c, kperm (draw g 5 c) 0 = Ok (ordering_at g c) /\ 0 <= ordering_at g c < 120.
Proof.
  intros g c. destruct (kperm_ok (draw g 5 c) 0 (draw_length g 5 c) ltac:(lia)) as (_ & r & E & R).
  unfold ordering_at. rewrite E. auto.
Qed.

Lemma mod5_inj : forall a b k, (a < 5)%nat -> (b < 5)%nat -> ((a + k) mod 5 = (b + k) mod 5)%nat -> a = b.
Proof.
  intros a b k Ha Hb E.
  pose proof (Nat.div_mod (a + k) 5 ltac:(lia)). pose proof (Nat.div_mod (b + k) 5 ltac:(lia)). lia.
Qed.

Definition ring (g : nat -> N) (c : nat) (v : list N) (vind : N) : Prop :=
  length v = 5%nat /\ (vind < 5)%N /\
  forall i, (i < 5)%nat -> window v (N.to_nat vind) i = g (c + i)%nat.

Lemma ring_kperm : forall g c v vind, ring g c v vind -> kperm v vind = Ok (ordering_at g c).
Proof.
  intros g c v vind (L & H & W). rewrite <- (proj1 (ordering_at_ok g c)).
  rewrite (proj1 (kperm_ok v vind L H)), (proj1 (kperm_ok (draw g 5 c) 0 (draw_length g 5 c) ltac:(lia))).
  f_equal. apply map_ext_in. intros i I.
  assert (Hi : (i < 5)%nat) by (cbn [In] in I; lia).
  unfold seen. specialize (W i Hi). unfold window in W. rewrite W.
  change (N.to_nat 0) with 0%nat. rewrite Nat.add_0_r, Nat.mod_small by exact Hi.
  rewrite draw_nth by exact Hi. reflexivity.
Qed.

Lemma ring_step : forall g c v vind, ring g c v vind ->
  exists v', aset v (Z.of_N vind) (g (c + 5)%nat) = Ok v' /\ ring g (S c) v' ((vind + 1) mod 5)%N.
Proof.
  intros g c v vind (L & H & W). rewrite aset_ok by lia. eexists. split; [reflexivity|].
  assert (Em : N.to_nat ((vind + 1) mod 5) = ((N.to_nat vind + 1) mod 5)%nat)
    by (rewrite N2Nat.inj_mod by lia; f_equal; lia).
  split; [rewrite set_nth_length; exact L|]. split; [apply N.mod_lt; lia|].
  intros i Hi. unfold window. rewrite Em, Nat.add_mod_idemp_r by lia.
  replace (i + (N.to_nat vind + 1))%nat with (S i + N.to_nat vind)%nat by lia.
  replace (Z.to_nat (Z.of_N vind)) with (N.to_nat vind) by lia.
  destruct (Nat.eq_dec i 4) as [->|Ni].
  - replace ((5 + N.to_nat vind) mod 5)%nat with (N.to_nat vind).
    + rewrite nth_set_nth_eq by lia. f_equal. lia.
    + rewrite <- (Nat.add_mod_idemp_l 5) by lia. change (5 mod 5)%nat with 0%nat. rewrite Nat.mod_small; lia.
  - rewrite nth_set_nth_ne.
    + specialize (W (S i) ltac:(lia)). unfold window in W. rewrite W. f_equal. lia.
    + intro E. assert (0 = S i)%nat; [|lia]. apply (mod5_inj 0 (S i) (N.to_nat vind)); [lia|lia|].
      rewrite <- E. apply Nat.mod_small. lia.
Qed.

(** With overlap, round t counts the ordering of results t .. t+4, so
    consecutive rounds share four values; without, rounds use disjoint groups of
    five (after five results that are drawn and thrown away).  Every round is
    counted exactly once, and exactly tsamples + 5 (or 5 tsamples + 5) results
    are drawn. *)
Theorem C55_operm5_counts : forall g (overlap : bool) tsamples c,
  exists counts,
    operm_counts g overlap tsamples c =
      Ok (counts, if overlap then (c + 5 + tsamples)%nat else (c + 5 + 5 * tsamples)%nat) /\
    length counts = 120%nat /\
    tallies counts (map (fun t => ordering_at g (if overlap then (c + t)%nat else (c + 5 + 5 * t)%nat)) (seq 0 tsamples)) /\
    total counts = N.of_nat tsamples.
Proof.
  intros g overlap n c. unfold operm_counts.
  set (s0 := {| o_count := _; o_v := _; o_vind := _; o_c := _ |}).
  assert (Inv : exists s, iter_o n (operm_step g overlap) s0 = Ok s /\ length (o_count s) = 120%nat /\
    tallies (o_count s) (map (fun t => ordering_at g (if overlap then (c + t)%nat else (c + 5 + 5 * t)%nat)) (seq 0 n)) /\
    o_c s = (if overlap then (c + 5 + n)%nat else (c + 5 + 5 * n)%nat) /\
    (overlap = true -> ring g (c + n) (o_v s) (o_vind s))).
  { assert (IS : forall m s, iter_o m (operm_step g overlap) s0 = Ok s ->
      iter_o (S m) (operm_step g overlap) s0 = operm_step g overlap s).
    { intros m. generalize s0. induction m; intros s1 s E.
      - cbn in *. inversion E; subst. destruct (operm_step g overlap s); reflexivity.
      - cbn [iter_o] in E |- *. destruct (operm_step g overlap s1) as [s2| | |]; try discriminate.
        cbn [bind] in *. specialize (IHm s2 s E). cbn [iter_o] in IHm. exact IHm. }
    induction n as [|n IH].
    - exists s0. split; [reflexivity|]. split; [reflexivity|]. split; [apply (tallies_nil 120)|].
      split; [destruct overlap; cbn; lia|]. intros _. split; [reflexivity|]. split; [cbn; lia|].
      intros i Hi. unfold window. cbn [o_vind o_v s0]. change (N.to_nat 0) with 0%nat.
      rewrite !Nat.add_0_r, Nat.mod_small by exact Hi. apply (draw_nth g 5 c i Hi).
    - destruct IH as (s & E & L & T & C & R). rewrite (IS n s E). rewrite seq_S, map_app. cbn [map Nat.add].
      unfold operm_step. destruct overlap.
      + rewrite (ring_kperm g (c + n) _ _ (R eq_refl)). cbn [bind].
        destruct (ordering_at_ok g (c + n)) as [_ B].
        destruct (tallies_bump _ _ (ordering_at g (c + n)) T) as (t & -> & Lt & Tt); [lia|]. cbn [bind].
        destruct (ring_step g (c + n) _ _ (R eq_refl)) as (v' & Ev & Rv).
        rewrite C. replace (c + 5 + n)%nat with (c + n + 5)%nat by lia. rewrite Ev. cbn [bind].
        eexists. split; [reflexivity|]. cbn [o_count o_c o_v o_vind]. split; [congruence|]. split; [exact Tt|].
        split; [lia|]. intros _. replace (c + S n)%nat with (S (c + n)) by lia. exact Rv.
      + destruct (ordering_at_ok g (o_c s)) as [E1 B]. rewrite E1. cbn [bind]. rewrite C in *.
        destruct (tallies_bump _ _ (ordering_at g (c + 5 + 5 * n)) T) as (t & -> & Lt & Tt); [lia|]. cbn [bind].
        eexists. split; [reflexivity|]. cbn [o_count o_c o_v o_vind]. split; [congruence|]. split; [exact Tt|].
        split; [lia|]. discriminate. }
  destruct Inv as (s & E & L & T & C & _). rewrite E. cbn [bind]. exists (o_count s).
  rewrite C. split; [destruct overlap; reflexivity|]. split; [exact L|]. split; [exact T|].
  rewrite (tallies_total _ _ T), map_length, seq_length. reflexivity.
Qed.
Example C55_ex :
  match operm_counts (fun i => N.of_nat (i * 7 mod 11)) true 3 0 with
  | Ok (t, c) => (total t, c, map (fun k => nth k t 0%N) (map (fun i => Z.to_nat (ordering_at (fun i => N.of_nat (i * 7 mod 11)) i)) [0; 1; 2]%nat))
  | _ => (0%N, 0%nat, []) end = (3%N, 8%nat, [1; 1; 1]%N).
Proof. vm_compute. reflexivity. Qed.

Print Assumptions C34_kperm.
Print Assumptions C34_all_numbers.
Print Assumptions C54_full_range_order_refuted.
Print Assumptions C54_signed_order.
Print Assumptions C55_operm5_counts.
