From Verif Require Import BaseLemmas PopcountModel CountOnesSpec.
Open Scope N_scope.

(** A word as a low part of [k] bits and a high part. *)
Lemma testbit_join : forall k a b i, a < 2 ^ k -> N.testbit (a + 2 ^ k * b) i = if i <? k then N.testbit a i else N.testbit b (i - k).
Proof.
  intros k a b i A. rewrite N.mul_comm, <- N.shiftl_mul_pow2.
  rewrite testbit_add_disjoint.
  - rewrite testbit_shiftl. destruct (N.ltb_spec i k).
    + replace (k <=? i) with false by lia. rewrite orb_false_r. reflexivity.
    + replace (k <=? i) with true by lia. rewrite (testbit_lt a k) by assumption. reflexivity.
  - intro j. rewrite testbit_shiftl. destruct (N.leb_spec k j).
    + rewrite (testbit_lt a k) by assumption. reflexivity.
    + apply andb_false_r.
Qed.
Lemma land_join : forall k a b m M, a < 2 ^ k -> m < 2 ^ k ->
  N.land (a + 2 ^ k * b) (m + 2 ^ k * M) = N.land a m + 2 ^ k * N.land b M.
Proof.
  intros k a b m M A B. apply N.bits_inj. intro i. rewrite N.land_spec, !testbit_join; auto.
  - destruct (i <? k); rewrite N.land_spec; reflexivity.
  - apply lt_pow2_testbit. intros j J. rewrite N.land_spec, (testbit_lt a k) by assumption. reflexivity.
Qed.
Lemma shr_join : forall k a b m M s, a < 2 ^ k -> s <= k -> m < 2 ^ (k - s) ->
  N.land (N.shiftr (a + 2 ^ k * b) s) (m + 2 ^ k * M) = N.land (N.shiftr a s) m + 2 ^ k * N.land (N.shiftr b s) M.
Proof.
  intros k a b m M s A S Hm.
  assert (P : 2 ^ (k - s) <= 2 ^ k) by (apply N.pow_le_mono_r; lia).
  assert (M' : m < 2 ^ k) by lia.
  assert (L : N.land (N.shiftr a s) m < 2 ^ k).
  { apply lt_pow2_testbit. intros j J. rewrite N.land_spec. rewrite (testbit_lt m k) by assumption. apply andb_false_r. }
  apply N.bits_inj. intro i. rewrite N.land_spec, testbit_shiftr, !testbit_join by assumption.
  destruct (N.ltb_spec i k).
  - rewrite N.land_spec, testbit_shiftr. destruct (N.ltb_spec (i + s) k).
    + reflexivity.
    + rewrite (testbit_lt m (k - s)) by (assumption || lia). rewrite !andb_false_r. reflexivity.
  - replace (i + s <? k) with false by lia. rewrite N.land_spec, testbit_shiftr. f_equal. f_equal. lia.
Qed.

(** Four bytes. *)
Definition b4 (a b c d : N) : N := a + 2 ^ 8 * (b + 2 ^ 8 * (c + 2 ^ 8 * d)).
Definition byte (x : N) : Prop := x < 2 ^ 8.

Lemma b4_of : forall x, x < 2 ^ 32 -> exists a b c d, x = b4 a b c d /\ byte a /\ byte b /\ byte c /\ byte d.
Proof.
  intros x H. unfold b4, byte.
  exists (x mod 256), (x / 256 mod 256), (x / 256 / 256 mod 256), (x / 256 / 256 / 256).
  change (2 ^ 8) with 256. change (2 ^ 32) with 4294967296 in H.
  pose proof (N.div_mod x 256 ltac:(lia)). pose proof (N.mod_lt x 256 ltac:(lia)).
  pose proof (N.div_mod (x / 256) 256 ltac:(lia)). pose proof (N.mod_lt (x / 256) 256 ltac:(lia)).
  pose proof (N.div_mod (x / 256 / 256) 256 ltac:(lia)). pose proof (N.mod_lt (x / 256 / 256) 256 ltac:(lia)).
  repeat split; lia.
Qed.
Lemma b4_lt : forall a b c d, byte a -> byte b -> byte c -> byte d -> b4 a b c d < 2 ^ 32.
Proof. unfold b4, byte. intros. change (2 ^ 32) with 4294967296. change (2 ^ 8) with 256 in *. lia. Qed.
Lemma b4_land : forall a b c d m, byte a -> byte b -> byte c -> byte m ->
  N.land (b4 a b c d) (b4 m m m m) = b4 (N.land a m) (N.land b m) (N.land c m) (N.land d m).
Proof. unfold b4, byte. intros. rewrite !land_join by assumption. reflexivity. Qed.
Lemma b4_shr : forall a b c d m s, byte a -> byte b -> byte c -> s <= 8 -> m < 2 ^ (8 - s) ->
  N.land (N.shiftr (b4 a b c d) s) (b4 m m m m) =
  b4 (N.land (N.shiftr a s) m) (N.land (N.shiftr b s) m) (N.land (N.shiftr c s) m) (N.land (N.shiftr d s) m).
Proof. unfold b4, byte. intros. rewrite !shr_join by assumption. reflexivity. Qed.
Lemma b4_add : forall a b c d a' b' c' d', b4 a b c d + b4 a' b' c' d' = b4 (a + a') (b + b') (c + c') (d + d').
Proof. unfold b4. intros. lia. Qed.

(** All 256 bytes. *)
Lemma all_bytes : forall f : N -> bool, forallb (fun k => f (N.of_nat k)) (seq 0 256) = true -> forall x, byte x -> f x = true.
Proof.
  intros f H x B. unfold byte in B. change (2 ^ 8) with 256 in B. rewrite forallb_forall in H.
  specialize (H (N.to_nat x)). rewrite N2Nat.id in H. apply H. apply in_seq. lia.
Qed.

Lemma ones_split : forall k x y, x < 2 ^ N.of_nat k -> forall n, ones (n + k) (x + 2 ^ N.of_nat k * y) = ones k x + ones n y.
Proof.
  intros k x y X. induction n as [|n IH].
  - cbn [Nat.add ones]. rewrite N.add_0_r.
    assert (G : forall m z, (m <= k)%nat -> (forall i, i < N.of_nat m -> N.testbit z i = N.testbit x i) -> ones m z = ones m x).
    { induction m; intros z L E; cbn [ones]; [reflexivity|]. rewrite E by lia. rewrite IHm; [reflexivity|lia|].
      intros i I. apply E. lia. }
    apply G; [lia|]. intros i I. rewrite testbit_join by exact X. replace (i <? N.of_nat k) with true by lia. reflexivity.
  - cbn [Nat.add ones]. rewrite IH. rewrite testbit_join by exact X. replace (N.of_nat (n + k) <? N.of_nat k) with false by lia.
    replace (N.of_nat (n + k) - N.of_nat k) with (N.of_nat n) by lia. lia.
Qed.
Lemma ones_b4 : forall a b c d, byte a -> byte b -> byte c ->
  ones 32 (b4 a b c d) = ones 8 a + (ones 8 b + (ones 8 c + ones 8 d)).
Proof.
  unfold byte, b4. intros a b c d A B C.
  change 32%nat with (24 + 8)%nat. change (2 ^ 8) with (2 ^ N.of_nat 8) in *. rewrite ones_split by assumption.
  change 24%nat with (16 + 8)%nat. rewrite ones_split by assumption.
  change 16%nat with (8 + 8)%nat. rewrite ones_split by assumption. reflexivity.
Qed.
Lemma ones_le : forall n x, ones n x <= N.of_nat n.
Proof. induction n; intro x; cbn [ones]; [lia|]. specialize (IHn x). destruct (N.testbit x (N.of_nat n)); lia. Qed.
Lemma ones_byte_le : forall x, ones 8 x <= 8.
Proof. intro. apply (ones_le 8). Qed.

(** The byte-wise steps of the two formulas. *)
Definition step1 (x : N) : N := x - N.land (N.shiftr x 1) 0x55.
Definition step2 (x : N) : N := N.land x 0x33 + N.land (N.shiftr x 2) 0x33.
Definition step3 (x : N) : N := N.land (x + N.shiftr x 4) 0x0f.
Lemma step1_ok : forall x, byte x -> (N.land (N.shiftr x 1) 0x55 <=? x) && (step1 x <? 256) = true.
Proof. apply all_bytes. vm_compute. reflexivity. Qed.
Lemma step2_ok : forall x, byte x -> (step2 (step1 x) <? 256) && (N.land (step1 x) 0x33 + N.land (N.shiftr (step1 x) 2) 0x33 <? 256) = true.
Proof. apply all_bytes. vm_compute. reflexivity. Qed.
(** x + (x >> 4) on the nibble counts stays inside a byte *)
Lemma step3_ok : forall x, byte x ->
  (step3 (step2 (step1 x)) =? ones 8 x) &&
  (N.land (step2 (step1 x)) 0x0f + N.land (N.shiftr (step2 (step1 x)) 4) 0x0f =? ones 8 x) &&
  ((step2 (step1 x) mod 16 <=? 4) && (step2 (step1 x) / 16 <=? 4)) = true.
Proof. apply all_bytes. vm_compute. reflexivity. Qed.

Lemma land_mod_pow : forall a k, N.land a (2 ^ k - 1) = a mod 2 ^ k.
Proof. intros. rewrite <- N.land_ones. f_equal. rewrite N.ones_equiv. lia. Qed.

Lemma last_steps : forall p q r s, p <= 8 -> q <= 8 -> r <= 8 -> s <= 8 ->
  (let n := b4 p q r s in let n := add32 n (N.shiftr n 8) in N.land (add32 n (N.shiftr n 16)) 0x3f) = p + (q + (r + s)).
Proof.
  intros p q r s P Q R S. cbv zeta. rewrite !N.shiftr_div_pow2.
  assert (E1 : b4 p q r s / 2 ^ 8 = b4 q r s 0).
  { symmetry. apply (N.div_unique _ _ _ p); unfold b4; change (2 ^ 8) with 256; lia. }
  rewrite E1. unfold add32. rewrite b4_add, N.add_0_r.
  assert (B : forall a b c d, a <= 32 -> b <= 32 -> c <= 32 -> d <= 32 -> b4 a b c d < 2 ^ 32).
  { intros. apply b4_lt; unfold byte; change (2 ^ 8) with 256; lia. }
  rewrite (w32_small (b4 _ _ _ _)) by (apply B; lia).
  assert (E2 : b4 (p + q) (q + r) (r + s) s / 2 ^ 16 = b4 (r + s) s 0 0).
  { symmetry. apply (N.div_unique _ _ _ (p + q + 256 * (q + r))); unfold b4; change (2 ^ 8) with 256; change (2 ^ 16) with 65536; lia. }
  rewrite E2, b4_add. rewrite w32_small by (apply B; lia).
  change 0x3f with (2 ^ 6 - 1). rewrite land_mod_pow. symmetry.
  apply (N.mod_unique _ _ (4 * (q + r + s + 2 ^ 8 * (r + s + 0 + 2 ^ 8 * (s + 0)))));
    unfold b4; change (2 ^ 6) with 64; change (2 ^ 8) with 256; lia.
Qed.

Lemma swar_ok : forall x, x < 2 ^ 32 -> swar x = ones 32 x.
Proof.
  intros x H. destruct (b4_of x H) as (a & b & c & d & -> & A & B & C & D). unfold swar.
  change 0x55555555 with (b4 0x55 0x55 0x55 0x55). change 0x33333333 with (b4 0x33 0x33 0x33 0x33).
  change 0x0f0f0f0f with (b4 0x0f 0x0f 0x0f 0x0f).
  rewrite (b4_shr a b c d 0x55 1) by (try assumption; reflexivity || (intro; discriminate)).
  pose proof (step1_ok a A) as [A1 A2]%andb_prop. pose proof (step1_ok b B) as [B1 B2]%andb_prop.
  pose proof (step1_ok c C) as [C1 C2]%andb_prop. pose proof (step1_ok d D) as [D1 D2]%andb_prop.
  apply N.leb_le in A1, B1, C1, D1. apply N.ltb_lt in A2, B2, C2, D2.
  pose proof (step2_ok a A) as [A3 _]%andb_prop. pose proof (step2_ok b B) as [B3 _]%andb_prop.
  pose proof (step2_ok c C) as [C3 _]%andb_prop. pose proof (step2_ok d D) as [D3 _]%andb_prop.
  apply N.ltb_lt in A3, B3, C3, D3.
  pose proof (step3_ok a A) as [[A4 _]%andb_prop A5]%andb_prop. pose proof (step3_ok b B) as [[B4 _]%andb_prop B5]%andb_prop.
  pose proof (step3_ok c C) as [[C4 _]%andb_prop C5]%andb_prop. pose proof (step3_ok d D) as [[D4 _]%andb_prop D5]%andb_prop.
  apply N.eqb_eq in A4, B4, C4, D4.
  assert (S1 : sub32 (b4 a b c d) (b4 (N.land (N.shiftr a 1) 0x55) (N.land (N.shiftr b 1) 0x55)
      (N.land (N.shiftr c 1) 0x55) (N.land (N.shiftr d 1) 0x55)) = b4 (step1 a) (step1 b) (step1 c) (step1 d)).
  { rewrite sub32_small; [|unfold b4; clear - A1 B1 C1 D1; lia|exact H]. unfold b4, step1. clear - A1 B1 C1 D1. lia. }
  rewrite S1. cbv zeta.
  assert (T2 : add32 (N.land (b4 (step1 a) (step1 b) (step1 c) (step1 d)) (b4 0x33 0x33 0x33 0x33))
     (N.land (N.shiftr (b4 (step1 a) (step1 b) (step1 c) (step1 d)) 2) (b4 0x33 0x33 0x33 0x33)) =
     b4 (step2 (step1 a)) (step2 (step1 b)) (step2 (step1 c)) (step2 (step1 d))).
  { rewrite b4_land by (assumption || reflexivity). rewrite b4_shr by (assumption || reflexivity || (intro; discriminate)).
    unfold add32. rewrite b4_add. apply w32_small. apply b4_lt; assumption. }
  rewrite T2.
  assert (T3 : N.land (add32 (b4 (step2 (step1 a)) (step2 (step1 b)) (step2 (step1 c)) (step2 (step1 d)))
      (N.shiftr (b4 (step2 (step1 a)) (step2 (step1 b)) (step2 (step1 c)) (step2 (step1 d))) 4)) (b4 0x0f 0x0f 0x0f 0x0f) =
      b4 (ones 8 a) (ones 8 b) (ones 8 c) (ones 8 d)).
  { rewrite <- A4, <- B4, <- C4, <- D4. revert A3 B3 C3 D3 A5 B5 C5 D5.
    generalize (step2 (step1 a)) (step2 (step1 b)) (step2 (step1 c)) (step2 (step1 d)). clear.
    intros a b c d A B C D A' B' C' D'. unfold step3.
    (* x >> 4 spills the low nibble of each byte into the high nibble of the one below *)
    assert (E : N.shiftr (b4 a b c d) 4 =
      b4 (N.shiftr a 4 + 16 * (b mod 16)) (N.shiftr b 4 + 16 * (c mod 16)) (N.shiftr c 4 + 16 * (d mod 16)) (N.shiftr d 4)).
    { rewrite !N.shiftr_div_pow2. symmetry. change (2 ^ 4) with 16. change (2 ^ 8) with 256 in *. apply (N.div_unique _ _ _ (a mod 16)).
      - apply N.mod_lt. discriminate.
      - pose proof (N.div_mod a 16 ltac:(lia)). pose proof (N.div_mod b 16 ltac:(lia)).
        pose proof (N.div_mod c 16 ltac:(lia)). pose proof (N.div_mod d 16 ltac:(lia)).
        unfold b4. change (2 ^ 8) with 256. lia. }
    rewrite E. unfold add32. rewrite b4_add.
    assert (M : forall u, N.land u 0x0f = u mod 16) by (intro; apply (land_mod_pow u 4)).
    assert (K : forall x y, x mod 16 <= 4 -> x / 16 <= 4 -> y <= 4 ->
      byte (x + (N.shiftr x 4 + 16 * y)) /\ N.land (x + (N.shiftr x 4 + 16 * y)) 0x0f = N.land (x + N.shiftr x 4) 0x0f).
    { intros x y X1 X2 Y. rewrite !M, N.shiftr_div_pow2. change (2 ^ 4) with 16. unfold byte. change (2 ^ 8) with 256.
      pose proof (N.div_mod x 16 ltac:(lia)) as V. generalize dependent (x mod 16). generalize dependent (x / 16). intros h X2 l X1 V.
      split; [lia|]. transitivity (l + h).
      - symmetry. apply (N.mod_unique _ _ (h + y)); lia.
      - apply (N.mod_unique _ _ h); lia. }
    apply andb_prop in A', B', C', D'. destruct A' as [A1 A2], B' as [B1 B2], C' as [C1 C2], D' as [D1 D2].
    apply N.leb_le in A1, A2, B1, B2, C1, C2, D1, D2.
    destruct (K a (b mod 16) A1 A2 B1) as [Ka Ea]. destruct (K b (c mod 16) B1 B2 C1) as [Kb Eb].
    destruct (K c (d mod 16) C1 C2 D1) as [Kc Ec]. destruct (K d 0 D1 D2 ltac:(lia)) as [Kd Ed].
    rewrite N.mul_0_r, N.add_0_r in Kd, Ed.
    rewrite w32_small by (apply b4_lt; assumption).
    rewrite b4_land by (assumption || reflexivity). rewrite Ea, Eb, Ec. reflexivity. }
  rewrite T3. rewrite ones_b4 by assumption.
  apply (last_steps (ones 8 a) (ones 8 b) (ones 8 c) (ones 8 d)); apply ones_byte_le.
Qed.
