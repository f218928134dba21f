(** Proofs about CountOnesModel.v *)
From Verif Require Export BaseLemmas TallyLemmas MissingLemmas2 CountOnesModel CountOnesSpec.
Open Scope N_scope.

Lemma letter_le : forall x, letter x <= 4.
Proof. intro x. unfold letter. generalize (ones 8 x) as o. intro o. destruct (N.leb_spec o 2), (N.leb_spec 6 o); lia. Qed.

Lemma b5_table : forallb (fun k => match nth_error b5 k with Some l => l =? letter (N.of_nat k) | None => false end) (seq 0 256) = true.
Proof. vm_compute. reflexivity. Qed.

Lemma b5_letter : forall j, j < 256 -> aget b5 (Z.of_N j) = Ok (letter j).
Proof.
  intros j H. pose proof b5_table as T. rewrite forallb_forall in T. specialize (T (N.to_nat j)).
  rewrite in_seq in T. specialize (T ltac:(lia)). unfold aget. replace (Z.of_N j <? 0)%Z with false by lia.
  rewrite <- Z_N_nat, N2Z.id. destruct (nth_error b5 (N.to_nat j)); [|discriminate].
  apply N.eqb_eq in T. rewrite T, N2Nat.id. reflexivity.
Qed.

Lemma add_letter_ok : forall index5 i off, index5 < 2 ^ 29 -> i < 2 ^ 32 -> off < 32 ->
  add_letter index5 i off = Ok (index5 * 5 + letter (around 32 i off 8)).
Proof.
  intros index5 i off H Hi Ho. unfold add_letter.
  change 8 with (N.of_nat 8) at 1. change 0xFF with (N.ones (N.of_nat 8)).
  rewrite ntuple_from_whole_uint_ok by (assumption || lia). cbn [bind].
  rewrite b5_letter by (apply (around_lt 32 i off 8)). cbn [bind]. f_equal.
  pose proof (letter_le (around 32 i off 8)) as L. change (2 ^ 29) with 536870912 in H.
  unfold lshift5, add32, mul32. rewrite (w32_small (index5 * 5)) by (change (2 ^ 32) with 4294967296; lia).
  apply w32_small. change (2 ^ 32) with 4294967296. lia.
Qed.

Lemma around_field : forall x m, x < 2 ^ 32 -> m <= 3 -> around 32 x (8 * m) 8 = field x (8 * m) 8.
Proof.
  intros x m Hx Hm. rewrite <- field_land. symmetry. apply (land_ones_bits _ _ 8).
  intros k Hk. rewrite testbit_shiftr, N.mod_small by lia. f_equal. lia.
Qed.

(** ** Base 5 *)
Lemma base5_snoc : forall l x, base5 (l ++ [x]) = base5 l * 5 + x.
Proof. intros. unfold base5. rewrite fold_left_app. reflexivity. Qed.

Lemma base5_lt : forall l, (forall x, In x l -> x <= 4) -> base5 l < 5 ^ N.of_nat (length l).
Proof.
  intros l. induction l as [|x l IH] using rev_ind; intro H; [reflexivity|].
  rewrite base5_snoc, app_length, Nat.add_1_r, Nat2N.inj_succ, N.pow_succ_r'.
  pose proof (H x ltac:(rewrite in_app_iff; right; left; reflexivity)).
  specialize (IH ltac:(intros y I; apply H; rewrite in_app_iff; left; exact I)). lia.
Qed.

Lemma base5_cons : forall a l, (forall x, In x l -> x <= 4) -> a <= 4 ->
  base5 (a :: l) mod 5 ^ N.of_nat (length l) = base5 l.
Proof.
  intros a l H Ha.
  assert (E : forall m acc, fold_left (fun acc l => acc * 5 + l) m acc = acc * 5 ^ N.of_nat (length m) + base5 m).
  { induction m as [|x m IH]; intro acc; unfold base5; cbn [fold_left length]; [change (5 ^ N.of_nat 0) with 1; lia|].
    rewrite !IH. rewrite Nat2N.inj_succ, N.pow_succ_r'. nia. }
  change (base5 (a :: l)) with (fold_left (fun acc l => acc * 5 + l) l (0 * 5 + a)). rewrite E.
  rewrite N.add_comm, N.mod_add by (apply N.pow_nonzero; discriminate). apply N.mod_small. apply base5_lt. exact H.
Qed.

Lemma tally_word_ok : forall x4 x5 l4 l5 i, length x4 = N.to_nat 625 -> length x5 = N.to_nat 3125 ->
  tallies x4 l4 -> tallies x5 l5 ->
  exists x4' x5', tally_word x4 x5 i = Ok (x4', x5', i mod 3125) /\
    length x4' = N.to_nat 625 /\ length x5' = N.to_nat 3125 /\
    tallies x4' (l4 ++ [Z.of_N ((i mod 3125) mod 625)]) /\ tallies x5' (l5 ++ [Z.of_N (i mod 3125)]).
Proof.
  intros x4 x5 l4 l5 i L4 L5 T4 T5. unfold tally_word.
  assert (A : i mod 3125 < 3125) by (apply N.mod_lt; discriminate). revert A. generalize (i mod 3125) as k. intros k A.
  assert (B : k mod 625 < 625) by (apply N.mod_lt; discriminate). revert B. generalize (k mod 625) as j. intros j B.
  destruct (tallies_bump x4 l4 (Z.of_N j) T4) as (x4' & E4 & F4 & G4); [rewrite L4; lia|].
  destruct (tallies_bump x5 l5 (Z.of_N k) T5) as (x5' & E5 & F5 & G5); [rewrite L5; lia|].
  exists x4', x5'. rewrite E4. cbn [bind]. rewrite E5. cbn [bind]. split; [reflexivity|].
  split; [congruence|]. split; [congruence|]. split; assumption.
Qed.

Section Generator.
Variable g : nat -> N.
Hypothesis bounded : forall i, g i < 2 ^ 32.

Lemma stream_letter_le : forall c k, stream_letter g c k <= 4. Proof. intros. apply letter_le. Qed.

Definition cells5 (f : nat -> N) (n : nat) : list Z := map (fun t => Z.of_N (f t)) (seq 0 n).

Lemma cells_snoc : forall f n, cells5 f (S n) = cells5 f n ++ [Z.of_N (f n)].
Proof. intros. unfold cells5. rewrite seq_snoc, map_app. reflexivity. Qed.

Definition cs_inv (c t : nat) (s : cstate) : Prop :=
  (length (k_x4 s) = N.to_nat 625 /\ length (k_x5 s) = N.to_nat 3125 /\
   tallies (k_x4 s) (cells5 (word4 g c) t) /\ tallies (k_x5 s) (cells5 (word5 g c) t)) /\
  (k_index5 s < 3125 /\ k_index5 s mod 625 = base5 (map (stream_letter g c) (seq t 4))) /\
  (k_c s = (c + 1 + (t + 3) / 4)%nat) /\
  (k_boffset s mod 32 = 8 * N.of_nat (t mod 4)) /\
  ((t mod 4 <> 0)%nat -> k_i s = g (c + 1 + t / 4)%nat /\ k_boffset s = 8 * N.of_nat (t mod 4)).

Lemma word_step : forall c t i, i mod 625 = base5 (map (stream_letter g c) (seq t 4)) ->
  (i * 5 + stream_letter g c (t + 4)) mod 3125 = word5 g c t.
Proof.
  intros c t i H. pose proof (stream_letter_le c (t + 4)) as L.
  assert (E : word5 g c t = i mod 625 * 5 + stream_letter g c (t + 4)).
  { unfold word5. change 5%nat with (4 + 1)%nat. rewrite seq_app, map_app. cbn [seq map]. rewrite base5_snoc, H. reflexivity. }
  rewrite E. pose proof (N.div_mod i 625 ltac:(lia)) as D. pose proof (N.mod_lt i 625 ltac:(lia)) as M.
  symmetry. apply (N.mod_unique _ 3125 (i / 625)); lia.
Qed.

Lemma word5_mod : forall c t, word5 g c t mod 625 = word4 g c t.
Proof.
  intros c t. unfold word5, word4. change (seq t 5) with (t :: seq (S t) 4). cbn [map].
  apply (base5_cons _ (map (stream_letter g c) (seq (S t) 4))).
  - intros x I. apply in_map_iff in I. destruct I as (k & <- & _). apply stream_letter_le.
  - apply stream_letter_le.
Qed.
Lemma word5_lt : forall c t, word5 g c t < 3125.
Proof.
  intros. unfold word5. apply (base5_lt (map (stream_letter g c) (seq t 5))).
  intros x I. apply in_map_iff in I. destruct I as (k & <- & _). apply stream_letter_le.
Qed.

Lemma byte_of : forall c k m i, (k mod 4 = m)%nat -> i = g (c + k / 4)%nat ->
  letter (around 32 i (8 * N.of_nat m) 8) = stream_letter g c k.
Proof.
  intros c k m i <- ->. unfold stream_letter. rewrite around_field; [reflexivity|apply bounded|].
  pose proof (Nat.mod_upper_bound k 4 ltac:(lia)) as U. lia.
Qed.

Lemma add4 : forall t, ((t + 4) mod 4 = t mod 4 /\ (t + 4) / 4 = t / 4 + 1)%nat.
Proof.
  intro t. replace (t + 4)%nat with (t + 1 * 4)%nat by lia. rewrite Nat.mod_add, Nat.div_add by lia. auto.
Qed.

Lemma stream_step_ok : forall c t s, cs_inv c t s -> exists s', stream_step g s = Ok s' /\ cs_inv c (S t) s'.
Proof.
  intros c t s ((L4 & L5 & T4 & T5) & (I1 & I2) & C & O & R). unfold stream_step.
  pose proof (Nat.mod_upper_bound t 4 ltac:(lia)) as U. destruct (add4 t) as [A1 A2].
  destruct (group_div 4 t ltac:(lia)) as [Z1 Z2]. change (4 - 1)%nat with 3%nat in Z1, Z2.
  assert (X : (if k_boffset s mod 32 =? 0 then (g (k_c s), 0, S (k_c s)) else (k_i s, k_boffset s, k_c s))
            = (g (c + 1 + t / 4)%nat, 8 * N.of_nat (t mod 4), (c + 1 + (S t + 3) / 4)%nat)).
  { replace (S t + 3)%nat with (t + 4)%nat by lia. rewrite O, A2. destruct (Nat.eq_dec (t mod 4) 0) as [Z|Z].
    - rewrite Z. cbn [N.of_nat N.mul N.eqb]. rewrite C. destruct (Z1 Z) as [-> _]. f_equal. lia.
    - destruct (R Z) as [R1 R2]. replace (8 * N.of_nat (t mod 4) =? 0) with false by lia.
      rewrite R1, R2, C. destruct (Z2 Z) as [-> _]. reflexivity. }
  rewrite X. rewrite add_letter_ok; [|change (2 ^ 29) with 536870912; lia|apply bounded|lia]. cbn [bind].
  rewrite (byte_of c (t + 4) (t mod 4)) by (exact A1 || (f_equal; lia)).
  rewrite (word_step c t _ I2).
  destruct (tally_word_ok _ _ _ _ (word5 g c t) L4 L5 T4 T5) as (x4 & x5 & E & F4 & F5 & G4 & G5).
  rewrite E. cbn [bind]. rewrite (N.mod_small (word5 g c t) 3125) in * by apply word5_lt.
  eexists. split; [reflexivity|]. split; [|split; [|split; [|split]]]; cbn [k_x4 k_x5 k_index5 k_i k_boffset k_c].
  - split; [exact F4|]. split; [exact F5|]. rewrite !cells_snoc. rewrite word5_mod in G4. split; assumption.
  - split; [apply word5_lt|]. rewrite word5_mod. reflexivity.
  - reflexivity.
  - unfold add32. rewrite w32_small by (change (2 ^ 32) with 4294967296; clear - U; lia).
    destruct (Nat.eq_dec (S t mod 4) 0) as [Z|Z].
    + rewrite Z. assert (Q : (t mod 4 = 3)%nat).
      { pose proof (Nat.div_mod t 4 ltac:(lia)) as D. pose proof (Nat.div_mod (S t) 4 ltac:(lia)) as D'. lia. }
      rewrite Q. reflexivity.
    + rewrite (mod_next g 4 t ltac:(lia) Z). pose proof (Nat.mod_upper_bound (S t) 4 ltac:(lia)) as U'.
      rewrite (mod_next g 4 t ltac:(lia) Z) in U'. rewrite N.mod_small; clear - U'; lia.
  - intro Z. split.
    + rewrite (same_group 4 t ltac:(lia) Z). reflexivity.
    + unfold add32. rewrite w32_small by (change (2 ^ 32) with 4294967296; clear - U; lia).
      rewrite (mod_next g 4 t ltac:(lia) Z). lia.
Qed.

Lemma count_stream_ok : forall n c, exists x4 x5,
  count_stream g n c = Ok (x4, x5, (c + 1 + (n + 3) / 4)%nat) /\
  length x4 = N.to_nat 625 /\ length x5 = N.to_nat 3125 /\
  tallies x4 (cells5 (word4 g c) n) /\ tallies x5 (cells5 (word5 g c) n).
Proof.
  intros n c. unfold count_stream.
  change 8 with (N.of_nat 8) at 1. change 0xFF with (N.ones (N.of_nat 8)).
  rewrite ntuple_from_whole_uint_ok by (apply bounded || lia). cbn [bind].
  rewrite b5_letter by (apply (around_lt 32 (g c) 0 8)). cbn [bind].
  pose proof (letter_le (around 32 (g c) 0 8)) as A0. pose proof (letter_le (around 32 (g c) 8 8)) as A1.
  pose proof (letter_le (around 32 (g c) 16 8)) as A2. pose proof (letter_le (around 32 (g c) 24 8)) as A3.
  rewrite add_letter_ok; [|change (2 ^ 29) with 536870912; lia|apply bounded|lia]. cbn [bind].
  rewrite add_letter_ok; [|change (2 ^ 29) with 536870912; lia|apply bounded|lia]. cbn [bind].
  rewrite add_letter_ok; [|change (2 ^ 29) with 536870912; lia|apply bounded|lia]. cbn [bind].
  match goal with |- context [iter_o n _ ?s0] =>
    destruct (iter_inv _ (stream_step g) (cs_inv c) n s0) as (s & E & (L4 & L5 & T4 & T5) & _ & C & _) end.
  - split; [|split; [|split; [|split]]]; cbn [k_x4 k_x5 k_index5 k_i k_boffset k_c].
    + rewrite !repeat_length. split; [reflexivity|]. split; [reflexivity|].
      split; apply tallies_nil.
    + split; [lia|]. rewrite N.mod_small by lia. cbn [seq map]. unfold base5. cbn [fold_left].
      rewrite <- (byte_of c 0 0 (g c)) by (reflexivity || (f_equal; cbn; lia)).
      rewrite <- (byte_of c 1 1 (g c)) by (reflexivity || (f_equal; cbn; lia)).
      rewrite <- (byte_of c 2 2 (g c)) by (reflexivity || (f_equal; cbn; lia)).
      rewrite <- (byte_of c 3 3 (g c)) by (reflexivity || (f_equal; cbn; lia)).
      change (8 * N.of_nat 0) with 0. change (8 * N.of_nat 1) with 8. change (8 * N.of_nat 2) with 16.
      change (8 * N.of_nat 3) with 24. lia.
    + cbn. lia.
    + reflexivity.
    + intro H. elim H. reflexivity.
  - intros t s _ A. apply stream_step_ok. exact A.
  - rewrite E. cbn [bind]. exists (k_x4 s), (k_x5 s). rewrite C. auto.
Qed.

(** ** The byte test *)
Lemma byte_letters_ok : forall c off, off < 32 -> forall n i k, i * 5 ^ N.of_nat n + 5 ^ N.of_nat n <= 2 ^ 29 ->
  byte_letters g n i off (c + k) =
    Ok (i * 5 ^ N.of_nat n + base5 (map (fun j => letter (around 32 (g (c + j)%nat) off 8)) (seq k n)), (c + k + n)%nat).
Proof.
  intros c off Ho. induction n as [|n IH]; intros i k B.
  - cbn [byte_letters seq map]. change (5 ^ N.of_nat 0) with 1. unfold base5. cbn [fold_left]. f_equal. f_equal; lia.
  - cbn [byte_letters]. rewrite Nat2N.inj_succ, N.pow_succ_r' in *.
    assert (P : 0 < 5 ^ N.of_nat n) by (apply N.neq_0_lt_0, N.pow_nonzero; discriminate).
    rewrite add_letter_ok; [|nia|apply bounded|exact Ho]. cbn [bind].
    pose proof (letter_le (around 32 (g (c + k)) off 8)) as L.
    replace (S (c + k)) with (c + S k)%nat by lia. rewrite IH by nia. f_equal. f_equal; [|lia].
    cbn [seq map].
    assert (E : forall m acc, fold_left (fun acc l => acc * 5 + l) m acc = acc * 5 ^ N.of_nat (length m) + base5 m).
    { induction m as [|x m IHm]; intro acc; unfold base5; cbn [fold_left length]; [change (5 ^ N.of_nat 0) with 1; lia|].
      rewrite !IHm. rewrite Nat2N.inj_succ, N.pow_succ_r'. nia. }
    unfold base5 at 2. cbn [fold_left]. rewrite E, map_length, seq_length. nia.
Qed.

Definition cb_inv (c t : nat) (s : cstate) : Prop :=
  (length (k_x4 s) = N.to_nat 625 /\ length (k_x5 s) = N.to_nat 3125 /\
   tallies (k_x4 s) (cells5 (byte_word4 g c) t) /\ tallies (k_x5 s) (cells5 (byte_word5 g c) t)) /\
  k_index5 s < 3125 /\ k_c s = (c + 5 * t)%nat /\ k_boffset s = N.of_nat t.

Lemma byte_word5_lt : forall c t, byte_word5 g c t < 3125.
Proof.
  intros. apply (base5_lt (map (byte_letter g c t) (seq 0 5))).
  intros x I. apply in_map_iff in I. destruct I as (k & <- & _). apply letter_le.
Qed.
Lemma byte_word5_mod : forall c t, byte_word5 g c t mod 625 = byte_word4 g c t.
Proof.
  intros c t. unfold byte_word5, byte_word4. change (seq 0 5) with (0%nat :: seq 1 4). cbn [map].
  apply (base5_cons _ (map (byte_letter g c t) (seq 1 4))).
  - intros x I. apply in_map_iff in I. destruct I as (k & <- & _). apply letter_le.
  - apply letter_le.
Qed.

Lemma byte_word5_eq : forall c t,
  base5 (map (fun j => letter (around 32 (g (c + 5 * t + j)%nat) (N.of_nat (t mod 32)) 8)) (seq 0 5)) = byte_word5 g c t.
Proof. intros. unfold byte_word5, byte_letter. apply f_equal. apply map_ext. intro. reflexivity. Qed.
Lemma byte_step_ok : forall c t s, cb_inv c t s -> exists s', byte_step g s = Ok s' /\ cb_inv c (S t) s'.
Proof.
  intros c t s ((L4 & L5 & T4 & T5) & I & C & O). unfold byte_step. rewrite C, O.
  change 32 with (N.of_nat 32) at 1. rewrite <- Nat2N.inj_mod.
  pose proof (Nat.mod_upper_bound t 32 ltac:(lia)) as U.
  pose proof (byte_letters_ok (c + 5 * t) (N.of_nat (t mod 32)) ltac:(lia) 5 (k_index5 s) 0) as B.
  rewrite Nat.add_0_r in B. rewrite B by (change (5 ^ N.of_nat 5) with 3125; change (2 ^ 29) with 536870912; lia). clear B.
  cbn [bind]. rewrite byte_word5_eq. change (5 ^ N.of_nat 5) with 3125.
  destruct (tally_word_ok _ _ _ _ (k_index5 s * 3125 + byte_word5 g c t) L4 L5 T4 T5) as (x4 & x5 & E & F4 & F5 & G4 & G5).
  rewrite E. cbn [bind]. pose proof (byte_word5_lt c t) as W.
  assert (M : (k_index5 s * 3125 + byte_word5 g c t) mod 3125 = byte_word5 g c t).
  { rewrite N.add_comm, N.mod_add by discriminate. apply N.mod_small. exact W. }
  rewrite M in *. rewrite byte_word5_mod in G4.
  eexists. split; [reflexivity|]. split; [|split; [|split]]; cbn [k_x4 k_x5 k_index5 k_i k_boffset k_c].
  - rewrite !cells_snoc. auto.
  - exact W.
  - lia.
  - lia.
Qed.

Lemma count_byte_ok : forall n c, exists x4 x5,
  count_byte g n c = Ok (x4, x5, (c + 5 * n)%nat) /\
  length x4 = N.to_nat 625 /\ length x5 = N.to_nat 3125 /\
  tallies x4 (cells5 (byte_word4 g c) n) /\ tallies x5 (cells5 (byte_word5 g c) n).
Proof.
  intros n c. unfold count_byte.
  match goal with |- context [iter_o n _ ?s0] =>
    destruct (iter_inv _ (byte_step g) (cb_inv c) n s0) as (s & E & (L4 & L5 & T4 & T5) & _ & C & _) end.
  - split; [|split; [|split]]; cbn [k_x4 k_x5 k_index5 k_i k_boffset k_c].
    + rewrite !repeat_length. split; [reflexivity|]. split; [reflexivity|]. split; apply tallies_nil.
    + reflexivity.
    + lia.
    + reflexivity.
  - intros t s _ A. apply byte_step_ok. exact A.
  - rewrite E. cbn [bind]. exists (k_x4 s), (k_x5 s). rewrite C. auto.
Qed.
End Generator.
