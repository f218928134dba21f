From Verif Require Import BaseLemmas TallyLemmas PopcountModel CountOnesSpec PopcountLemmas.
Open Scope N_scope.

(** ** countx *)
Lemma all_bytes2 : forall x, byte x ->
  let p1 := N.land x 0x55 + N.land (N.shiftr x 1) 0x55 in
  let p2 := N.land p1 0x33 + N.land (N.shiftr p1 2) 0x33 in
  let p3 := N.land p2 0x0f + N.land (N.shiftr p2 4) 0x0f in
  (p1 <? 256) && (p2 <? 256) && (p3 =? ones 8 x) = true.
Proof. apply (all_bytes (fun x => _)). vm_compute. reflexivity. Qed.

Lemma low_land : forall c m, m < 2 ^ 32 -> N.land c m = N.land (c mod 2 ^ 32) m.
Proof.
  intros c m M. apply N.bits_inj. intro i. rewrite !N.land_spec, testbit_mod. destruct (N.ltb_spec i 32); [reflexivity|].
  rewrite (testbit_lt m 32) by assumption. rewrite !andb_false_r. reflexivity.
Qed.
Lemma low_shr : forall c m s, m < 2 ^ (32 - s) -> s <= 32 -> N.land (N.shiftr c s) m = N.land (N.shiftr (c mod 2 ^ 32) s) m.
Proof.
  intros c m s M S. apply N.bits_inj. intro i. rewrite !N.land_spec, !testbit_shiftr, testbit_mod. destruct (N.ltb_spec (i + s) 32); [reflexivity|].
  rewrite (testbit_lt m (32 - s)) by (assumption || lia). rewrite !andb_false_r. reflexivity.
Qed.
Lemma ones_low : forall n m x, (n <= m)%nat -> ones n (x mod 2 ^ N.of_nat m) = ones n x.
Proof.
  induction n; intros m x L; cbn [ones]; [reflexivity|]. rewrite IHn by lia. rewrite testbit_mod.
  replace (N.of_nat n <? N.of_nat m) with true by lia. reflexivity.
Qed.

Definition swar2 (c : N) : N :=
  let c := w64 (N.land c 0x55555555 + N.land (N.shiftr c 1) 0x55555555) in
  let c := w64 (N.land c 0x33333333 + N.land (N.shiftr c 2) 0x33333333) in
  let c := w64 (N.land c 0x0f0f0f0f + N.land (N.shiftr c 4) 0x0f0f0f0f) in
  let c := w64 (N.land c 0x00ff00ff + N.land (N.shiftr c 8) 0x00ff00ff) in
  w64 (N.land c 0x0000ffff + N.land (N.shiftr c 16) 0x0000ffff).
Lemma swar2_ok : forall c, swar2 c = ones 32 c.
Proof.
  intro c. rewrite <- (ones_low 32 32 c ltac:(lia)). change (2 ^ N.of_nat 32) with (2 ^ 32). unfold swar2.
  rewrite (low_land c 0x55555555), (low_shr c 0x55555555 1) by (reflexivity || (intro; discriminate)).
  destruct (b4_of (c mod 2 ^ 32)) as (p & q & r & s & E & P & Q & R & S); [apply N.mod_lt; discriminate|].
  rewrite E. clear E c. rewrite ones_b4 by assumption.
  assert (W : forall a b c d, byte a -> byte b -> byte c -> byte d -> w64 (b4 a b c d) = b4 a b c d).
  { intros. apply w64_small. eapply N.lt_trans; [apply b4_lt; assumption|reflexivity]. }
  change 0x55555555 with (b4 0x55 0x55 0x55 0x55). change 0x33333333 with (b4 0x33 0x33 0x33 0x33).
  change 0x0f0f0f0f with (b4 0x0f 0x0f 0x0f 0x0f).
  pose proof (all_bytes2 p P) as [[P1 P2]%andb_prop P3]%andb_prop. pose proof (all_bytes2 q Q) as [[Q1 Q2]%andb_prop Q3]%andb_prop.
  pose proof (all_bytes2 r R) as [[R1 R2]%andb_prop R3]%andb_prop. pose proof (all_bytes2 s S) as [[S1 S2]%andb_prop S3]%andb_prop.
  apply N.ltb_lt in P1, Q1, R1, S1, P2, Q2, R2, S2. apply N.eqb_eq in P3, Q3, R3, S3.
  rewrite b4_land by (assumption || reflexivity). rewrite b4_shr by (assumption || reflexivity || (intro; discriminate)).
  rewrite b4_add, W by assumption. cbv zeta.
  rewrite b4_land by (assumption || reflexivity). rewrite b4_shr by (assumption || reflexivity || (intro; discriminate)).
  rewrite b4_add, W by assumption.
  rewrite b4_land by (assumption || reflexivity). rewrite b4_shr by (assumption || reflexivity || (intro; discriminate)).
  rewrite b4_add, P3, Q3, R3, S3.
  pose proof (ones_byte_le p). pose proof (ones_byte_le q). pose proof (ones_byte_le r). pose proof (ones_byte_le s).
  clear P1 Q1 R1 S1 P2 Q2 R2 S2 P3 Q3 R3 S3.
  generalize dependent (ones 8 p). generalize dependent (ones 8 q). generalize dependent (ones 8 r). generalize dependent (ones 8 s).
  clear P Q R S p q r s. intros s S r R q Q p P.
  rewrite W by (unfold byte; change (2 ^ 8) with 256; lia).
  assert (M8 : forall a b c d, byte a -> byte b -> byte c -> byte d -> N.land (b4 a b c d) 0x00ff00ff = b4 a 0 c 0).
  { intros a b c d A B C D. change 0x00ff00ff with (b4 0xff 0 0xff 0). unfold b4. rewrite !land_join by (assumption || reflexivity).
    rewrite N.land_0_r. unfold byte in *. change 0xff with (2 ^ 8 - 1). rewrite !land_mod_pow, !N.mod_small, N.land_0_r by assumption. reflexivity. }
  rewrite M8 by (unfold byte; change (2 ^ 8) with 256; lia).
  assert (E1 : N.shiftr (b4 p q r s) 8 = b4 q r s 0).
  { rewrite N.shiftr_div_pow2. symmetry. apply (N.div_unique _ _ _ p); unfold b4; change (2 ^ 8) with 256; lia. }
  rewrite E1, M8 by (unfold byte; change (2 ^ 8) with 256; lia). rewrite b4_add.
  rewrite W by (unfold byte; change (2 ^ 8) with 256; lia).
  change 0x0000ffff with (2 ^ 16 - 1). rewrite !land_mod_pow, N.shiftr_div_pow2.
  assert (E2 : b4 (p + q) (0 + 0) (r + s) (0 + 0) mod 2 ^ 16 = p + q).
  { symmetry. apply (N.mod_unique _ _ (r + s)); unfold b4; change (2 ^ 8) with 256; change (2 ^ 16) with 65536; lia. }
  assert (E3 : b4 (p + q) (0 + 0) (r + s) (0 + 0) / 2 ^ 16 = r + s).
  { symmetry. apply (N.div_unique _ _ _ (p + q)); unfold b4; change (2 ^ 8) with 256; change (2 ^ 16) with 65536; lia. }
  rewrite E2, E3, N.mod_small by (change (2 ^ 16) with 65536; lia). rewrite w64_small; [lia|].
  change (2 ^ 64) with 18446744073709551616. lia.
Qed.

Lemma count_ok : forall x, count x = ones 32 (N.lxor x (2 * x)).
Proof.
  intro x. change (count x) with (swar2 (N.lxor x (w64 (N.shiftl x 1)))). rewrite swar2_ok.
  rewrite <- (ones_low 32 64 (N.lxor x (2 * x))) by lia. rewrite <- (ones_low 32 64 (N.lxor x (w64 (N.shiftl x 1)))) by lia.
  f_equal. apply N.bits_inj. intro i. rewrite !testbit_mod, !N.lxor_spec, testbit_w64. change (N.of_nat 64) with 64.
  rewrite N.shiftl_mul_pow2. change (2 ^ 1) with 2. rewrite (N.mul_comm x 2). destruct (i <? 64); reflexivity.
Qed.

(** ** monobit *)
Section Generator.
Variable g : nat -> N.
Hypothesis bounded : forall i, g i < 2 ^ 32.

(** Sum of [f] over a list of positions. *)
Definition sum (f : nat -> N) (l : list nat) : N := fold_right (fun k a => f k + a) 0 l.
Lemma sum_app : forall f a b, sum f (a ++ b) = sum f a + sum f b.
Proof. induction a; intro b; cbn [sum fold_right app]; [reflexivity|]. fold (sum f (a0 ++ b)) (sum f a0). rewrite IHa. lia. Qed.

Lemma monobit_sum_ok : forall n c x, monobit_sum g n c x = x + sum (fun k => ones 32 (g (c + k)%nat)) (seq 0 n).
Proof.
  induction n; intros c x; cbn [monobit_sum]; [cbn; lia|]. rewrite IHn, swar_ok by apply bounded.
  change (seq 0 (S n)) with (0%nat :: seq 1 n). cbn [sum fold_right]. rewrite Nat.add_0_r. rewrite <- seq_shift.
  assert (G : forall l, fold_right (fun k a => ones 32 (g (S c + k)%nat) + a) 0 l = fold_right (fun k a => ones 32 (g (c + k)%nat) + a) 0 (map S l)).
  { induction l; cbn [fold_right map]; [reflexivity|]. rewrite IHl. f_equal. f_equal. f_equal. lia. }
  unfold sum. rewrite G. lia.
Qed.

(** ** monobit2 *)
Variable c : nat.
Definition o (k : nat) : N := ones 32 (g (c + k)%nat).

(** Word [i] completes a block at level [j]. *)
Definition ends (j i : nat) : bool := (i mod 2 ^ S j =? 2 ^ j)%nat.
Fixpoint running (j i : nat) : N :=
  match i with O => 0 | S m => if ends j m then 0 else running j m + o m end.

Lemma end_test : forall j i, N.of_nat i < 2 ^ 32 ->
  negb (N.land (2 ^ N.of_nat j) (N.of_nat i) =? 0) && (N.land (2 ^ N.of_nat j) (sub32 (N.of_nat i) 1) =? 0) = ends j i.
Proof.
  intros j i B.
  assert (T : forall x, (N.land (2 ^ N.of_nat j) x =? 0) = negb (N.testbit x (N.of_nat j))).
  { intro x. destruct (N.testbit x (N.of_nat j)) eqn:E; cbn [negb].
    - apply N.eqb_neq. intro Z. assert (H : N.testbit (N.land (2 ^ N.of_nat j) x) (N.of_nat j) = true).
      { rewrite N.land_spec, N.pow2_bits_true, E. reflexivity. }
      rewrite Z, N.bits_0 in H. discriminate.
    - apply N.eqb_eq. apply N.bits_inj_0. intro k. rewrite N.land_spec, N.pow2_bits_eqb.
      destruct (N.eqb_spec (N.of_nat j) k) as [<-|_]; [exact E|reflexivity]. }
  rewrite !T, negb_involutive.
  assert (Eb : forall x, N.testbit (N.of_nat x) (N.of_nat j) = (2 ^ j <=? x mod 2 ^ S j)%nat).
  { intro x. rewrite N.testbit_eqb. replace (2 ^ N.of_nat j) with (N.of_nat (2 ^ j)) by (rewrite Nat2N.inj_pow; reflexivity).
    rewrite <- Nat2N.inj_div. change 2 with (N.of_nat 2) at 1. rewrite <- Nat2N.inj_mod.
    assert (P : (2 ^ j <> 0)%nat) by (apply Nat.pow_nonzero; lia).
    pose proof (Nat.div_mod x (2 ^ S j) ltac:(apply Nat.pow_nonzero; lia)) as D.
    pose proof (Nat.mod_upper_bound x (2 ^ S j) ltac:(apply Nat.pow_nonzero; lia)) as U.
    rewrite Nat.pow_succ_r' in *. generalize dependent (x mod (2 * 2 ^ j))%nat. intros r D U.
    destruct (Nat.leb_spec (2 ^ j) r).
    - assert (Q : (x / 2 ^ j = 2 * (x / (2 * 2 ^ j)) + 1)%nat) by (symmetry; apply (Nat.div_unique _ _ _ (r - 2 ^ j)); nia).
      rewrite Q. replace ((2 * (x / (2 * 2 ^ j)) + 1) mod 2)%nat with 1%nat; [reflexivity|].
      apply (Nat.mod_unique _ _ (x / (2 * 2 ^ j))); lia.
    - assert (Q : (x / 2 ^ j = 2 * (x / (2 * 2 ^ j)))%nat) by (symmetry; apply (Nat.div_unique _ _ _ r); nia).
      rewrite Q. replace ((2 * (x / (2 * 2 ^ j))) mod 2)%nat with 0%nat; [reflexivity|].
      apply (Nat.mod_unique _ _ (x / (2 * 2 ^ j))); lia. }
  unfold ends. rewrite Eb. destruct i as [|i].
  { assert (P : (2 ^ j <> 0)%nat) by (apply Nat.pow_nonzero; lia). rewrite Nat.mod_0_l by (apply Nat.pow_nonzero; lia).
    replace (2 ^ j <=? 0)%nat with false by (symmetry; apply Nat.leb_gt; lia). symmetry. apply Nat.eqb_neq. lia. }
  rewrite sub32_small by lia. replace (N.of_nat (S i) - 1) with (N.of_nat i) by lia. rewrite Eb.
  assert (P : (2 ^ j <> 0)%nat) by (apply Nat.pow_nonzero; lia).
  assert (P2 : (2 ^ S j <> 0)%nat) by (apply Nat.pow_nonzero; lia).
  pose proof (Nat.div_mod i (2 ^ S j) P2) as D. pose proof (Nat.mod_upper_bound i (2 ^ S j) P2) as U.
  assert (M : (S i mod 2 ^ S j = if i mod 2 ^ S j + 1 =? 2 ^ S j then 0 else i mod 2 ^ S j + 1)%nat).
  { destruct (Nat.eqb_spec (i mod 2 ^ S j + 1) (2 ^ S j)); symmetry.
    - apply (Nat.mod_unique _ _ (i / 2 ^ S j + 1)); nia.
    - apply (Nat.mod_unique _ _ (i / 2 ^ S j)); lia. }
  rewrite M. rewrite Nat.pow_succ_r' in *. generalize dependent (i mod (2 * 2 ^ j))%nat. intros r D U M.
  destruct (Nat.eqb_spec (r + 1) (2 * 2 ^ j)).
  - replace (2 ^ j <=? 0)%nat with false by (symmetry; apply Nat.leb_gt; lia). symmetry. apply Nat.eqb_neq. lia.
  - destruct (Nat.leb_spec (2 ^ j) (r + 1)), (Nat.leb_spec (2 ^ j) r), (Nat.eqb_spec (r + 1) (2 ^ j)); cbn; try reflexivity; lia.
Qed.

(** Blocks: the first of level [j] ends with word 2^j, the others are
    2^(j+1) words long. *)
Definition block_length (j i : nat) : nat := if (i =? 2 ^ j)%nat then (2 ^ j + 1)%nat else (2 ^ S j)%nat.
Definition block_ones (j i : nat) : N := sum o (seq (i + 1 - block_length j i) (block_length j i)).

Lemma sum_snoc : forall a n, sum o (seq a n) + o (a + n) = sum o (seq a (S n)).
Proof.
  intros a n. rewrite seq_S, sum_app. cbn [sum fold_right]. lia.
Qed.
Lemma running_first : forall j i, (i <= 2 ^ j)%nat -> running j i = sum o (seq 0 i).
Proof.
  induction i; intro H; [reflexivity|]. cbn [running]. unfold ends at 1.
  rewrite Nat.mod_small by (rewrite Nat.pow_succ_r'; lia). rewrite (proj2 (Nat.eqb_neq i (2 ^ j))) by lia.
  rewrite IHi by lia. exact (sum_snoc 0 i).
Qed.
Lemma running_later : forall j e d, ends j e = true -> (d < 2 ^ S j)%nat -> running j (e + 1 + d) = sum o (seq (e + 1) d).
Proof.
  intros j e d E. unfold ends in E. apply Nat.eqb_eq in E. induction d; intro H.
  - rewrite Nat.add_0_r, Nat.add_1_r. cbn [running]. unfold ends. rewrite E, Nat.eqb_refl. reflexivity.
  - replace (e + 1 + S d)%nat with (S (e + 1 + d)) by lia. cbn [running].
    assert (F : ends j (e + 1 + d) = false).
    { unfold ends. apply Nat.eqb_neq. intro F. assert (P2 : (2 ^ S j <> 0)%nat) by (apply Nat.pow_nonzero; lia).
      pose proof (Nat.div_mod e (2 ^ S j) P2). pose proof (Nat.div_mod (e + 1 + d) (2 ^ S j) P2).
      rewrite E in *. rewrite F in *. clear E F IHd.
      generalize dependent (e / 2 ^ S j)%nat. generalize dependent ((e + 1 + d) / 2 ^ S j)%nat. intros b B a A.
      destruct (Nat.le_gt_cases b a) as [C|C]; [assert (2 ^ S j * b <= 2 ^ S j * a)%nat by (apply Nat.mul_le_mono_l; exact C); lia|].
      assert (2 ^ S j * (a + 1) <= 2 ^ S j * b)%nat by (apply Nat.mul_le_mono_l; lia). lia. }
    rewrite F, IHd by lia. exact (sum_snoc (e + 1) d).
Qed.
Lemma block_ones_running : forall j i, ends j i = true -> block_ones j i = running j i + o i.
Proof.
  intros j i E. unfold block_ones, block_length. pose proof E as E0. unfold ends in E. apply Nat.eqb_eq in E.
  assert (P2 : (2 ^ S j <> 0)%nat) by (apply Nat.pow_nonzero; lia).
  destruct (Nat.eqb_spec i (2 ^ j)) as [->|NE].
  - replace (2 ^ j + 1 - (2 ^ j + 1))%nat with 0%nat by lia. rewrite running_first by lia.
    rewrite Nat.add_1_r. symmetry. exact (sum_snoc 0 (2 ^ j)).
  - pose proof (Nat.div_mod i (2 ^ S j) P2) as D. rewrite E in D.
    assert (Q : (1 <= i / 2 ^ S j)%nat).
    { destruct (i / 2 ^ S j)%nat; [exfalso; apply NE; lia|lia]. }
    assert (GE : (2 ^ S j <= i)%nat) by nia.
    assert (EE : ends j (i - 2 ^ S j) = true).
    { unfold ends. apply Nat.eqb_eq. symmetry. apply (Nat.mod_unique _ _ (i / 2 ^ S j - 1)); [rewrite Nat.pow_succ_r'; lia|nia]. }
    pose proof (running_later j (i - 2 ^ S j) (2 ^ S j - 1) EE ltac:(lia)) as R.
    replace (i - 2 ^ S j + 1 + (2 ^ S j - 1))%nat with i in R by lia. rewrite R.
    pose proof (sum_snoc (i - 2 ^ S j + 1) (2 ^ S j - 1)) as T.
    replace (i - 2 ^ S j + 1 + (2 ^ S j - 1))%nat with i in T by lia. rewrite T.
    replace (S (2 ^ S j - 1)) with (2 ^ S j)%nat by lia. replace (i + 1 - 2 ^ S j)%nat with (i - 2 ^ S j + 1)%nat by lia. reflexivity.
Qed.

(** The counts recorded for word [i], levels below [n]. *)
Definition cell_of (blens : N) (j i : nat) : Z := Z.of_N (blens * (2 ^ N.of_nat (S j) - 1) + block_ones j i).
Definition cells_at (blens : N) (ntup i : nat) : list Z :=
  flat_map (fun j => if ends j i then [cell_of blens j i] else []) (seq 0 ntup).

Variable blens : N.
Hypothesis narrow : forall k, o k <= blens.
Hypothesis blens_pos : 0 < blens.
Hypothesis blens_le : blens <= 32.

Lemma sum_bound : forall l, sum o l <= blens * N.of_nat (length l).
Proof. induction l as [|k l IH]; cbn [sum fold_right length]; [lia|]. fold (sum o l). pose proof (narrow k). nia. Qed.
Lemma running_le : forall j i, running j i <= blens * N.of_nat (2 ^ S j - 1).
Proof.
  intros j i.
  (* either in the first block or after some end *)
  assert (G : (i <= 2 ^ j)%nat \/ exists e d, ends j e = true /\ (d < 2 ^ S j)%nat /\ i = (e + 1 + d)%nat).
  { destruct (Nat.leb_spec i (2 ^ j)); [left; assumption|right].
    assert (P2 : (2 ^ S j <> 0)%nat) by (apply Nat.pow_nonzero; lia).
    pose proof (Nat.div_mod (i - 1 - 2 ^ j) (2 ^ S j) P2) as D. pose proof (Nat.mod_upper_bound (i - 1 - 2 ^ j) (2 ^ S j) P2) as U.
    exists (2 ^ S j * ((i - 1 - 2 ^ j) / 2 ^ S j) + 2 ^ j)%nat, ((i - 1 - 2 ^ j) mod 2 ^ S j)%nat.
    split; [|split; [exact U|lia]].
    unfold ends. apply Nat.eqb_eq. symmetry. apply (Nat.mod_unique _ _ ((i - 1 - 2 ^ j) / 2 ^ S j)); [|reflexivity].
    rewrite Nat.pow_succ_r'. assert (2 ^ j <> 0)%nat by (apply Nat.pow_nonzero; lia). lia. }
  assert (P : (2 ^ j <> 0)%nat) by (apply Nat.pow_nonzero; lia).
  destruct G as [G|(e & d & E & L & ->)].
  - rewrite running_first by exact G. eapply N.le_trans; [apply sum_bound|]. rewrite seq_length, Nat.pow_succ_r'.
    apply N.mul_le_mono_l. lia.
  - rewrite running_later by assumption. eapply N.le_trans; [apply sum_bound|]. rewrite seq_length. apply N.mul_le_mono_l. lia.
Qed.

Lemma pow_ofnat : forall j, 2 ^ N.of_nat j = N.of_nat (2 ^ j).
Proof. intro. rewrite Nat2N.inj_pow. reflexivity. Qed.

Definition tc_ok (ntup i : nat) (tc : list N) : Prop :=
  length tc = ntup /\ forall j, (j < ntup)%nat -> nth j tc 0 = running j i.

Lemma block_loop_ok : forall ntup i, (ntup <= 15)%nat -> N.of_nat i < 2 ^ 32 ->
  forall r j tc counts l, (j + r = ntup)%nat -> length tc = ntup ->
  (forall k, (k < j)%nat -> nth k tc 0 = running k (S i)) -> (forall k, (j <= k < ntup)%nat -> nth k tc 0 = running k i) ->
  length counts = N.to_nat (blens * 2 ^ N.of_nat (S ntup)) -> tallies counts l ->
  exists tc' counts', block_loop r (N.of_nat j) blens (N.of_nat i) (o i) (2 ^ N.of_nat j) tc counts = Ok (tc', counts') /\
    tc_ok ntup (S i) tc' /\ length counts' = length counts /\
    tallies counts' (l ++ flat_map (fun j => if ends j i then [cell_of blens j i] else []) (seq j r)).
Proof.
  intros ntup i HN HI. induction r as [|r IH]; intros j tc counts l E L T1 T2 LC TC; cbn [block_loop].
  - exists tc, counts. split; [reflexivity|]. split; [split; [exact L|]; intros k Hk; apply T1; lia|]. split; [reflexivity|].
    cbn [seq flat_map]. rewrite app_nil_r. exact TC.
  - rewrite (aget_ok tc _ 0) by lia. cbn [bind]. replace (Z.to_nat (Z.of_N (N.of_nat j))) with j by lia. rewrite T2 by lia.
    assert (PJ : N.of_nat (2 ^ S j) <= 65536) by (rewrite <- pow_ofnat; change 65536 with (2 ^ 16); apply N.pow_le_mono_r; lia).
    pose proof (running_le j i) as RL. pose proof (narrow i) as NI.
    assert (RO : running j i + o i < 2 ^ 32).
    { change (2 ^ 32) with 4294967296.
      assert (H : N.of_nat (2 ^ S j - 1) <= 65535) by (clear - PJ; lia).
      assert (H2 : blens * N.of_nat (2 ^ S j - 1) <= 32 * 65535) by (apply N.mul_le_mono; assumption). clear PJ H TC LC T1 T2. lia. }
    unfold add32. rewrite (w32_small _ RO). rewrite aset_ok by lia. cbn [bind].
    replace (Z.to_nat (Z.of_N (N.of_nat j))) with j by lia.
    rewrite end_test by exact HI.
    assert (EJ : N.of_nat j + 1 = N.of_nat (S j)) by lia. rewrite EJ.
    assert (ET : w32 (2 * 2 ^ N.of_nat j) = 2 ^ N.of_nat (S j)).
    { rewrite Nat2N.inj_succ, N.pow_succ_r'. apply w32_small. rewrite <- N.pow_succ_r', <- Nat2N.inj_succ.
      apply N.pow_lt_mono_r; lia. }
    rewrite ET. cbn [seq flat_map].
    destruct (ends j i) eqn:EE.
    + assert (BO : running j i + o i = block_ones j i) by (symmetry; apply block_ones_running; exact EE).
      assert (PE : 2 * 2 ^ N.of_nat j = 2 ^ N.of_nat (S j)) by (rewrite Nat2N.inj_succ, N.pow_succ_r'; reflexivity).
      rewrite BO, PE. fold (cell_of blens j i).
      assert (CB : (0 <= cell_of blens j i < Z.of_nat (length counts))%Z).
      { unfold cell_of. rewrite <- BO, LC. split; [lia|].
        assert (B1 : running j i + o i <= blens * 2 ^ N.of_nat (S j)).
        { rewrite pow_ofnat. eapply N.le_trans; [apply N.add_le_mono; [exact RL|exact NI]|].
          assert (2 ^ S j <> 0)%nat by (apply Nat.pow_nonzero; lia). clear - H. nia. }
        assert (B2 : 2 ^ N.of_nat (S j) * 2 <= 2 ^ N.of_nat (S ntup)).
        { rewrite N.mul_comm, <- N.pow_succ_r'. apply N.pow_le_mono_r; lia. }
        assert (B3 : 1 <= 2 ^ N.of_nat (S j)) by (apply N.lt_pred_le; apply N.neq_0_lt_0, N.pow_nonzero; discriminate).
        (* blens = 0 would make o i = 0; then the table is empty *)
        destruct (N.eq_dec blens 0) as [Z0|Z0].
        - exfalso. pose proof blens_pos. lia.
        - clear - B1 B2 B3 Z0. nia. }
      destruct (tallies_bump counts l _ TC CB) as (counts1 & F & LC1 & TC1). rewrite F. cbn [bind].
      rewrite aset_ok by (rewrite ?set_nth_length; lia). cbn [bind].
      replace (Z.to_nat (Z.of_N (N.of_nat j))) with j by lia.
      destruct (IH (S j) (set_nth (set_nth tc j (block_ones j i)) j 0) counts1 (l ++ [cell_of blens j i])) as (tc' & counts' & G & K & LC' & TC').
      * lia.
      * rewrite !set_nth_length. exact L.
      * intros k Hk. destruct (Nat.eq_dec k j) as [->|NE].
        -- rewrite nth_set_nth_eq by (rewrite set_nth_length; lia). cbn [running]. rewrite EE. reflexivity.
        -- rewrite !nth_set_nth_ne by auto. apply T1. lia.
      * intros k Hk. rewrite !nth_set_nth_ne by lia. apply T2. lia.
      * lia.
      * exact TC1.
      * exists tc', counts'. split; [exact G|]. split; [exact K|]. split; [lia|].
        cbn [app]. rewrite <- app_assoc in TC'. exact TC'.
    + destruct (IH (S j) (set_nth tc j (running j i + o i)) counts l) as (tc' & counts' & G & K & LC' & TC').
      * lia.
      * rewrite set_nth_length. exact L.
      * intros k Hk. destruct (Nat.eq_dec k j) as [->|NE].
        -- rewrite nth_set_nth_eq by lia. cbn [running]. rewrite EE. reflexivity.
        -- rewrite nth_set_nth_ne by auto. apply T1. lia.
      * intros k Hk. rewrite nth_set_nth_ne by lia. apply T2. lia.
      * exact LC.
      * exact TC.
      * exists tc', counts'. auto.
Qed.
End Generator.
