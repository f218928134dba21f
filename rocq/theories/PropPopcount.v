(** Theorems C40, C67, C68: counting bits. *)
From Verif Require Import BaseLemmas TallyLemmas MissingLemmas PopcountModel CountOnesSpec PopcountLemmas PopcountLemmas2.
Open Scope N_scope.

(** ** C40: the branch-free bit counters count bits *)
Theorem C40_monobit : forall x, x < 2 ^ 32 -> swar x = ones 32 x.
Proof. exact swar_ok. Qed.

(** [count] counts the positions among the lowest 32 whose bit differs from the
    bit below it, for every 64-bit argument, and indexes inside [ftab]. *)
Theorem C40_countx : forall x, count x = ones 32 (N.lxor x (2 * x)) /\
  (forall i, i < 32 -> N.testbit (N.lxor x (2 * x)) i = xorb (N.testbit x i) (negb (i =? 0) && N.testbit x (i - 1))) /\
  (N.to_nat (count x) < length ftab)%nat.
Proof.
  intro x. split; [apply count_ok|]. split.
  - intros i _. rewrite N.lxor_spec. destruct (N.eqb_spec i 0) as [->|H]; cbn [negb andb].
    + rewrite N.testbit_even_0. reflexivity.
    + replace i with (N.succ (i - 1)) at 2 by lia. rewrite N.double_bits_succ. reflexivity.
  - rewrite count_ok. pose proof (ones_le 32 (N.lxor x (2 * x))). change (length ftab) with 33%nat. lia.
Qed.
Example C40_ex : swar 0xdeadbeef = 24 /\ count 0xffff0000ffff0000 = 1 /\ count 0x55555555 = 32.
Proof. vm_compute. auto. Qed.

(** ** C67: the monobit statistic *)

(** The statistic is the number of 1 bits minus the number of 0 bits of the
    words sampled, for generators of any width w. *)
Definition balance (g : nat -> N) (w tsamples c : nat) : Z :=
  fold_right (fun k a => (Z.of_N (ones w (g (c + k)%nat)) - (Z.of_nat w - Z.of_N (ones w (g (c + k)%nat))) + a)%Z) 0%Z (seq 0 tsamples).

Lemma ones_narrow : forall w n x, x < 2 ^ N.of_nat w -> (w <= n)%nat -> ones n x = ones w x.
Proof.
  intros w n x X H. induction H; [reflexivity|]. cbn [ones]. rewrite IHle, (testbit_lt x (N.of_nat w)) by (assumption || lia). reflexivity.
Qed.
Lemma lt_wider : forall w x, (w <= 32)%nat -> x < 2 ^ N.of_nat w -> x < 2 ^ 32.
Proof. intros w x W X. eapply N.lt_le_trans; [exact X|]. apply N.pow_le_mono_r; lia. Qed.

(** Missing for the full claim: runs of 2^32 bits and more. *)
Theorem C67_statistic_partial : forall g w tsamples c, (w <= 32)%nat -> (forall i, g i < 2 ^ N.of_nat w) ->
  N.of_nat w * N.of_nat tsamples < 2 ^ 32 ->
  monobit g (N.of_nat w) tsamples c = balance g w tsamples c.
Proof.
  intros g w n c W B L. unfold monobit. rewrite monobit_sum_ok by (intro; eapply lt_wider; eauto).
  unfold mul32. rewrite (w32_small _ L). unfold balance. clear L.
  assert (G : forall l, (2 * Z.of_N (sum (fun k => ones 32 (g (c + k)%nat)) l) - Z.of_N (N.of_nat w * N.of_nat (length l)) =
    fold_right (fun k a => Z.of_N (ones w (g (c + k)%nat)) - (Z.of_nat w - Z.of_N (ones w (g (c + k)%nat))) + a) 0 l)%Z).
  { induction l as [|k l IH]; [cbn; lia|]. cbn [fold_right length sum]. rewrite <- IH. clear IH.
    fold (sum (fun k => ones 32 (g (c + k)%nat)) l). rewrite (ones_narrow w 32) by auto. nia. }
  specialize (G (seq 0 n)). rewrite seq_length in G. lia.
Qed.

(** With 2^27 32-bit words the number of bits wraps to 0: a generator that
    always returns 0 gets statistic 0, the perfect score, instead of -2^32. *)
Theorem C67_wrap_refuted : exists g tsamples c, (forall i, g i < 2 ^ 32) /\
  monobit g 32 tsamples c = 0%Z /\ balance g 32 tsamples c = (- 2 ^ 32)%Z.
Proof.
  exists (fun _ => 0), (N.to_nat (2 ^ 27)), 0%nat. split; [intro; reflexivity|]. split.
  - unfold monobit. rewrite N2Nat.id. change (mul32 32 (2 ^ 27)) with 0.
    rewrite monobit_sum_ok by (intro; reflexivity).
    assert (G : forall l, sum (fun _ : nat => ones 32 0) l = 0) by (induction l; [reflexivity|]; cbn [sum fold_right]; fold (sum (fun _ : nat => ones 32 0) l); rewrite IHl; reflexivity).
    rewrite G. reflexivity.
  - unfold balance.
    assert (G : forall l : list nat, fold_right (fun k a => (Z.of_N (ones 32 0) - (Z.of_nat 32 - Z.of_N (ones 32 0)) + a)%Z) 0%Z l = (- 32 * Z.of_nat (length l))%Z).
    { induction l; [reflexivity|]. cbn [fold_right length]. rewrite IHl. change (Z.of_N (ones 32 0)) with 0%Z. lia. }
    rewrite G, seq_length. lia.
Qed.
Example C67_ex : monobit (fun i => N.of_nat i) 32 5 0 = (-150)%Z /\ balance (fun i => N.of_nat i) 32 5 0 = (-150)%Z.
Proof. vm_compute. auto. Qed.

(** ** C68: the block counts of dab_monobit2 *)

(** For generators of every width and every run length, the table holds exactly
    the numbers of 1 bits in the blocks that [ends] marks, each in the region of
    its level; no access is outside the tables.  [cells_at] lists them: a block
    of level j is recorded when word i with i mod 2^(j+1) = 2^j arrives, and
    covers that word and the 2^(j+1)-1 words before it, or, for the first block
    of the level, all 2^j+1 words so far. *)
Theorem C68_blocks : forall g w ntup tsamples c, (0 < w <= 32)%nat -> (ntup <= 15)%nat ->
  (forall i, g i < 2 ^ N.of_nat w) -> N.of_nat tsamples < 2 ^ 32 ->
  exists counts, monobit2 g ntup (N.of_nat w) tsamples c = Ok counts /\
    length counts = (w * 2 ^ S ntup)%nat /\
    tallies counts (flat_map (cells_at g c (N.of_nat w) ntup) (seq 0 tsamples)).
Proof.
  intros g w ntup n c W HN B L. unfold monobit2.
  assert (NB : forall k, o g c k <= N.of_nat w).
  { intro k. unfold o. rewrite (ones_narrow w 32) by (auto; lia). apply ones_le. }
  set (P := fun (t : nat) (s : N * list N * list N * nat) => let '(i, tc, counts, c') := s in
    i = N.of_nat t /\ c' = (c + t)%nat /\ tc_ok g c ntup t tc /\
    length counts = N.to_nat (N.of_nat w * 2 ^ N.of_nat (S ntup)) /\
    tallies counts (flat_map (cells_at g c (N.of_nat w) ntup) (seq 0 t))).
  assert (EP : 2 * 2 ^ N.of_nat ntup = 2 ^ N.of_nat (S ntup)) by (rewrite Nat2N.inj_succ, N.pow_succ_r'; reflexivity).
  rewrite EP.
  destruct (iter_inv _ (block_step g ntup (N.of_nat w)) P n
    (0, repeat 0 ntup, repeat 0 (N.to_nat (N.of_nat w * 2 ^ N.of_nat (S ntup))), c)) as ([[[i tc] counts] c'] & E & I1 & I2 & I3 & I4 & I5).
  - unfold P. split; [reflexivity|]. split; [lia|]. split; [split; [apply repeat_length|intros; apply nth_repeat]|].
    split; [apply repeat_length|]. split; [intros ? []|]. intros k _. rewrite nth_repeat. reflexivity.
  - intros t [[[i tc] counts] c'] Ht (-> & -> & [LT TC] & LC & TA).
    unfold block_step. rewrite swar_ok by (eapply lt_wider; [|apply B]; lia).
    destruct (block_loop_ok g ltac:(intro; eapply lt_wider; [|apply B]; lia) c (N.of_nat w) NB ltac:(lia) ltac:(lia) ntup t HN ltac:(lia) ntup 0%nat tc counts _ ltac:(lia) LT ltac:(lia) ltac:(intros; apply TC; lia) LC TA) as (tc' & counts' & F & TC' & LC' & TA').
    change (N.of_nat 0) with 0 in F. change (2 ^ 0) with 1 in F. unfold o in F. rewrite F. cbn [bind].
    eexists. split; [reflexivity|]. unfold P. split; [lia|]. split; [lia|]. split; [exact TC'|]. split; [lia|].
    rewrite seq_S, flat_map_app. cbn [flat_map]. rewrite app_nil_r. exact TA'.
  - exists counts. rewrite E. cbn [bind]. split; [reflexivity|]. split; [|exact I5].
    rewrite I4, N2Nat.inj_mul, Nat2N.id, pow_ofnat, Nat2N.id. reflexivity.
Qed.

(** The claim "the counts of level j are the 1 bits of blocks of 2^(j+1) words"
    is false: after 3 words, level 1 (blocks of 4 words) has recorded a count. *)
Theorem C68_first_block_refuted : exists g counts, (forall i, g i < 2 ^ 32) /\
  monobit2 g 2 32 3 0 = Ok counts /\ nth (32 * 3 + 5) counts 0 = 1 /\
  ones 32 (g 0%nat) + ones 32 (g 1%nat) + ones 32 (g 2%nat) = 5.
Proof.
  exists (fun i => match i with 0%nat => 3 | 1%nat => 1 | _ => 0x30000000 end). eexists.
  split; [intro i; destruct i as [|[|i]]; reflexivity|]. split; [vm_compute; reflexivity|]. split; vm_compute; reflexivity.
Qed.
(** A block of ones only is counted as a block of zeros only of the next level. *)
Theorem C68_regions_overlap_refuted : exists g g' counts counts',
  (forall i, g i < 2 ^ 32) /\ (forall i, g' i < 2 ^ 32) /\
  monobit2 g 2 32 2 0 = Ok counts /\ nth (32 * 3) counts 0 = 1 /\ g 0%nat = 2 ^ 32 - 1 /\ g 1%nat = 2 ^ 32 - 1 /\
  monobit2 g' 2 32 3 0 = Ok counts' /\ nth (32 * 3) counts' 0 = 1 /\ (forall i, g' i = 0).
Proof.
  exists (fun _ => 2 ^ 32 - 1), (fun _ => 0). eexists. eexists.
  split; [intro; reflexivity|]. split; [intro; reflexivity|]. split; [vm_compute; reflexivity|].
  split; [vm_compute; reflexivity|]. split; [reflexivity|]. split; [reflexivity|].
  split; [vm_compute; reflexivity|]. split; [vm_compute; reflexivity|]. intro; reflexivity.
Qed.
(** The number of blocks recorded differs from the tsamples/2^(j+1) blocks the
    chi-square expects: 3 words, level 1. *)
Example C68_ex : (forall i, (if Nat.even i then 5 else 255) < 2 ^ N.of_nat 8) /\
  map (fun i => cells_at (fun i => if Nat.even i then 5 else 255) 0 8 2 i) (seq 0 7) =
    [[]; [18]; [36]; [18]; []; [18]; [44]]%Z.
Proof. split; [intro i; destruct (Nat.even i); reflexivity|vm_compute; reflexivity]. Qed.

Print Assumptions C40_monobit.
Print Assumptions C40_countx.
Print Assumptions C67_statistic_partial.
Print Assumptions C67_wrap_refuted.
Print Assumptions C68_blocks.
Print Assumptions C68_first_block_refuted.
Print Assumptions C68_regions_overlap_refuted.
