From Verif Require Import BaseLemmas ThreefishModel ThreefishSpec ThreefishLemmas ThreefishLemmas2.
Open Scope N_scope.

(** ** Rotation *)
Lemma rotl64_bit : forall x r i, x < 2 ^ 64 -> r <= 64 -> N.testbit (rotl64 x r) i = (i <? 64) && N.testbit x (if i <? r then i + (64 - r) else i - r).
Proof.
  intros x r i X R. unfold rotl64. rewrite N.lor_spec, testbit_w64, N.shiftr_spec by lia.
  assert (H : forall j, 64 <= j -> N.testbit x j = false) by (intros j J; rewrite <- (N.mod_small x (2 ^ 64)) by exact X; apply N.mod_pow2_bits_high; exact J).
  destruct (N.ltb_spec i 64) as [I|I]; cbn [andb].
  - destruct (N.ltb_spec i r) as [I'|I']; [rewrite N.shiftl_spec_low by exact I'; reflexivity|].
    rewrite N.shiftl_spec_high by lia. rewrite (H (i + (64 - r))) by lia. apply orb_false_r.
  - rewrite H by lia. reflexivity.
Qed.
Lemma bits_lt : forall n x, (forall i, n <= i -> N.testbit x i = false) -> x < 2 ^ n.
Proof.
  intros n x H. assert (E : x = x mod 2 ^ n).
  { apply N.bits_inj. intro i. destruct (N.lt_ge_cases i n) as [L|L]; [rewrite N.mod_pow2_bits_low by exact L; reflexivity|rewrite N.mod_pow2_bits_high, H by exact L; reflexivity]. }
  rewrite E. apply N.mod_lt, N.pow_nonzero. discriminate.
Qed.
Lemma rotl64_lt : forall x r, x < 2 ^ 64 -> r <= 64 -> rotl64 x r < 2 ^ 64.
Proof. intros x r X R. apply bits_lt. intros i I. rewrite rotl64_bit by assumption. replace (i <? 64) with false by (symmetry; apply N.ltb_ge; exact I). reflexivity. Qed.
Lemma rotl64_inv : forall x r, x < 2 ^ 64 -> r <= 64 -> rotl64 (rotl64 x r) (64 - r) = x.
Proof.
  intros x r X R. apply N.bits_inj. intro i. rewrite rotl64_bit by (try apply rotl64_lt; (assumption || lia)).
  destruct (N.ltb_spec i 64) as [I|I]; cbn [andb].
  - rewrite rotl64_bit by assumption. destruct (N.ltb_spec i (64 - r)) as [J|J].
    + replace (i + (64 - (64 - r)) <? 64) with true by (symmetry; apply N.ltb_lt; lia). replace (i + (64 - (64 - r)) <? r) with false by (symmetry; apply N.ltb_ge; lia). cbn [andb]. f_equal. lia.
    + replace (i - (64 - r) <? 64) with true by (symmetry; apply N.ltb_lt; lia). replace (i - (64 - r) <? r) with true by (symmetry; apply N.ltb_lt; lia). cbn [andb]. f_equal. lia.
  - rewrite <- (N.mod_small x (2 ^ 64)) by exact X. rewrite N.mod_pow2_bits_high by exact I. reflexivity.
Qed.
Lemma rotl64_inv' : forall x r, x < 2 ^ 64 -> r <= 64 -> rotl64 (rotl64 x (64 - r)) r = x.
Proof. intros x r X R. replace r with (64 - (64 - r)) at 2 by lia. apply rotl64_inv; [exact X|lia]. Qed.
Lemma lxor64 : forall x y, x < 2 ^ 64 -> y < 2 ^ 64 -> N.lxor x y < 2 ^ 64.
Proof.
  intros x y X Y. apply bits_lt. intros i I. rewrite N.lxor_spec. rewrite <- (N.mod_small x (2 ^ 64)), <- (N.mod_small y (2 ^ 64)) by assumption. rewrite !N.mod_pow2_bits_high by exact I. reflexivity.
Qed.
Lemma lxor_back : forall x y, N.lxor (N.lxor x y) y = x.
Proof. intros. rewrite N.lxor_assoc, N.lxor_nilpotent. apply N.lxor_0_r. Qed.
Definition sub64 (x y : N) : N := w64 (x + (2 ^ 64 - w64 y)).
Lemma sub_add : forall x y, x < 2 ^ 64 -> sub64 (w64 (x + y)) y = x.
Proof.
  intros x y X. unfold sub64, w64. pose proof (N.mod_lt y (2 ^ 64) ltac:(discriminate)) as M. rewrite (N.add_mod x y), (N.mod_small x) by (discriminate || exact X). rewrite N.add_mod_idemp_l by discriminate.
  replace (x + y mod 2 ^ 64 + (2 ^ 64 - y mod 2 ^ 64)) with (x + 1 * 2 ^ 64) by (generalize dependent (y mod 2 ^ 64); intros; lia). rewrite N.mod_add by discriminate. apply N.mod_small, X.
Qed.
Lemma add_sub : forall x y, x < 2 ^ 64 -> w64 (sub64 x y + y) = x.
Proof.
  intros x y X. unfold sub64, w64. pose proof (N.mod_lt y (2 ^ 64) ltac:(discriminate)) as M. rewrite N.add_mod, N.mod_mod, <- N.add_mod by discriminate.
  rewrite <- (N.add_mod_idemp_r _ y) by discriminate.
  replace (x + (2 ^ 64 - y mod 2 ^ 64) + y mod 2 ^ 64) with (x + 1 * 2 ^ 64) by (generalize dependent (y mod 2 ^ 64); intros; lia). rewrite N.mod_add by discriminate. apply N.mod_small, X.
Qed.

(** ** Bijections on blocks *)
Definition block (v : list N) : Prop := length v = 8%nat /\ Forall (fun x => x < 2 ^ 64) v.
Definition bijective (f : list N -> list N) : Prop :=
  exists g, forall v, block v -> block (f v) /\ block (g v) /\ g (f v) = v /\ f (g v) = v.
Lemma bij_id : bijective (fun v => v).
Proof. exists (fun v => v). auto. Qed.
Lemma bij_comp : forall f f', bijective f -> bijective f' -> bijective (fun v => f' (f v)).
Proof.
  intros f f' [g G] [g' G']. exists (fun v => g (g' v)). intros v V. destruct (G v V) as (A & B & C & D). destruct (G' v V) as (A' & B' & C' & D').
  destruct (G' _ A) as (E1 & _ & E3 & _). destruct (G _ B') as (_ & F2 & _ & F4).
  split; [exact E1|]. split; [exact F2|]. rewrite E3, F4. auto.
Qed.
Lemma bij_fold : forall (h : nat -> list N -> list N) l, (forall i, In i l -> bijective (h i)) -> bijective (fun v => fold_left (fun v i => h i v) l v).
Proof.
  intros h. induction l as [|i l IH]; intro H; cbn [fold_left]; [apply bij_id|]. apply (bij_comp (h i) (fun v => fold_left (fun v i => h i v) l v)); [apply H; left; reflexivity|apply IH; intros j J; apply H; right; exact J].
Qed.
Lemma block_eight : forall v, block v -> exists x0 x1 x2 x3 x4 x5 x6 x7, v = [x0; x1; x2; x3; x4; x5; x6; x7] /\
  x0 < 2 ^ 64 /\ x1 < 2 ^ 64 /\ x2 < 2 ^ 64 /\ x3 < 2 ^ 64 /\ x4 < 2 ^ 64 /\ x5 < 2 ^ 64 /\ x6 < 2 ^ 64 /\ x7 < 2 ^ 64.
Proof.
  intros v [L F]. destruct (eight_len v L) as (x0 & x1 & x2 & x3 & x4 & x5 & x6 & x7 & ->). exists x0, x1, x2, x3, x4, x5, x6, x7. split; [reflexivity|].
  rewrite Forall_forall in F. do 7 (split; [apply F; cbn [In]; tauto|]). apply F. cbn [In]. tauto.
Qed.
Lemma block_list : forall x0 x1 x2 x3 x4 x5 x6 x7, x0 < 2 ^ 64 -> x1 < 2 ^ 64 -> x2 < 2 ^ 64 -> x3 < 2 ^ 64 -> x4 < 2 ^ 64 -> x5 < 2 ^ 64 -> x6 < 2 ^ 64 -> x7 < 2 ^ 64 -> block [x0; x1; x2; x3; x4; x5; x6; x7].
Proof. intros. split; [reflexivity|]. do 8 (constructor; [assumption|]). constructor. Qed.
Lemma rotation_le : forall d j, rotation d j <= 64.
Proof.
  intros d j. unfold rotation. pose proof (Nat.mod_upper_bound d 8 ltac:(lia)) as H. generalize dependent (d mod 8)%nat. intros m M.
  do 8 (destruct m as [|m]; [do 4 (destruct j as [|j]; [cbn; lia|]); destruct j; cbn; lia|]). lia.
Qed.
Definition unmix1 (r a c : N) : N := rotl64 (N.lxor c a) (64 - r).
Definition unmix0 (r a c : N) : N := sub64 a (unmix1 r a c).
Lemma unmix_mix : forall r x0 x1, x0 < 2 ^ 64 -> x1 < 2 ^ 64 -> r <= 64 -> unmix1 r (w64 (x0 + x1)) (mixc r x0 x1) = x1 /\ unmix0 r (w64 (x0 + x1)) (mixc r x0 x1) = x0.
Proof.
  intros r x0 x1 A B R. assert (E : unmix1 r (w64 (x0 + x1)) (mixc r x0 x1) = x1) by (unfold unmix1, mixc; rewrite lxor_back; apply rotl64_inv; assumption).
  split; [exact E|]. unfold unmix0. rewrite E. apply sub_add, A.
Qed.
Lemma mix_unmix : forall r a c, a < 2 ^ 64 -> c < 2 ^ 64 -> r <= 64 -> w64 (unmix0 r a c + unmix1 r a c) = a /\ mixc r (unmix0 r a c) (unmix1 r a c) = c.
Proof.
  intros r a c A B R. assert (E : w64 (unmix0 r a c + unmix1 r a c) = a) by (unfold unmix0; apply add_sub; exact A).
  split; [exact E|]. unfold mixc. rewrite E. unfold unmix1. rewrite rotl64_inv' by (try apply lxor64; assumption). apply lxor_back.
Qed.
Lemma mixc_lt : forall r x0 x1, x1 < 2 ^ 64 -> r <= 64 -> mixc r x0 x1 < 2 ^ 64.
Proof. intros. apply lxor64; [apply rotl64_lt; assumption|apply w64_lt]. Qed.
Lemma unmix1_lt : forall r a c, a < 2 ^ 64 -> c < 2 ^ 64 -> r <= 64 -> unmix1 r a c < 2 ^ 64.
Proof. intros. apply rotl64_lt; [apply lxor64; assumption|lia]. Qed.
Lemma unmix0_lt : forall r a c, unmix0 r a c < 2 ^ 64.
Proof. intros. apply w64_lt. Qed.
Lemma bij_mixperm : forall d, bijective (fun v => mixperm v d).
Proof.
  intro d. set (r := rotation d). pose proof (rotation_le d) as RL. fold r in RL.
  exists (fun y => [unmix0 (r 0%nat) (nth 6 y 0) (nth 1 y 0); unmix1 (r 0%nat) (nth 6 y 0) (nth 1 y 0);
                    unmix0 (r 1%nat) (nth 0 y 0) (nth 7 y 0); unmix1 (r 1%nat) (nth 0 y 0) (nth 7 y 0);
                    unmix0 (r 2%nat) (nth 2 y 0) (nth 5 y 0); unmix1 (r 2%nat) (nth 2 y 0) (nth 5 y 0);
                    unmix0 (r 3%nat) (nth 4 y 0) (nth 3 y 0); unmix1 (r 3%nat) (nth 4 y 0) (nth 3 y 0)]).
  intros v V. destruct (block_eight v V) as (x0 & x1 & x2 & x3 & x4 & x5 & x6 & x7 & -> & B0 & B1 & B2 & B3 & B4 & B5 & B6 & B7).
  rewrite !mixperm_eq. fold r. cbn [nth].
  split; [apply block_list; (apply w64_lt || (apply mixc_lt; [assumption|apply RL]))|].
  split; [apply block_list; (apply unmix0_lt || (apply unmix1_lt; [assumption|assumption|apply RL]))|].
  destruct (unmix_mix (r 0%nat) x0 x1 B0 B1 (RL _)) as [-> ->]. destruct (unmix_mix (r 1%nat) x2 x3 B2 B3 (RL _)) as [-> ->].
  destruct (unmix_mix (r 2%nat) x4 x5 B4 B5 (RL _)) as [-> ->]. destruct (unmix_mix (r 3%nat) x6 x7 B6 B7 (RL _)) as [-> ->].
  destruct (mix_unmix (r 0%nat) x6 x1 B6 B1 (RL _)) as [-> ->]. destruct (mix_unmix (r 1%nat) x0 x7 B0 B7 (RL _)) as [-> ->].
  destruct (mix_unmix (r 2%nat) x2 x5 B2 B5 (RL _)) as [-> ->]. destruct (mix_unmix (r 3%nat) x4 x3 B4 B3 (RL _)) as [-> ->]. auto.
Qed.
Lemma bij_add_subkey : forall key tweak s, bijective (add_subkey key tweak s).
Proof.
  intros key tweak s. set (k := subkey key tweak s).
  assert (AE : forall x0 x1 x2 x3 x4 x5 x6 x7, add_subkey key tweak s [x0; x1; x2; x3; x4; x5; x6; x7] =
    [w64 (x0 + k 0%nat); w64 (x1 + k 1%nat); w64 (x2 + k 2%nat); w64 (x3 + k 3%nat); w64 (x4 + k 4%nat); w64 (x5 + k 5%nat); w64 (x6 + k 6%nat); w64 (x7 + k 7%nat)]) by reflexivity.
  exists (fun y => [sub64 (nth 0 y 0) (k 0%nat); sub64 (nth 1 y 0) (k 1%nat); sub64 (nth 2 y 0) (k 2%nat); sub64 (nth 3 y 0) (k 3%nat);
                    sub64 (nth 4 y 0) (k 4%nat); sub64 (nth 5 y 0) (k 5%nat); sub64 (nth 6 y 0) (k 6%nat); sub64 (nth 7 y 0) (k 7%nat)]).
  intros v V. destruct (block_eight v V) as (x0 & x1 & x2 & x3 & x4 & x5 & x6 & x7 & -> & B0 & B1 & B2 & B3 & B4 & B5 & B6 & B7).
  rewrite !AE. clearbody k. clear AE. cbn [nth]. split; [apply block_list; apply w64_lt|]. split; [apply block_list; apply w64_lt|].
  rewrite !sub_add, !add_sub by assumption. auto.
Qed.
Lemma bij_threefish : forall key tweak, bijective (threefish key tweak).
Proof.
  intros key tweak. unfold threefish. apply (bij_comp (fun v => fold_left (round key tweak) (seq 0 72) v) (add_subkey key tweak 18)); [|apply bij_add_subkey].
  apply (bij_fold (fun d v => round key tweak v d)). intros d _. unfold round.
  destruct (Nat.eqb (d mod 4) 0); [|apply bij_mixperm].
  apply (bij_comp (add_subkey key tweak (d / 4)) (fun v => mixperm v d)); [apply bij_add_subkey|apply bij_mixperm].
Qed.

(** ** Bytes *)
Lemma nth_skipn : forall (l : list N) n k, nth k (skipn n l) 0 = nth (n + k) l 0.
Proof. induction l as [|a l IH]; intros n k; [rewrite skipn_nil; destruct k, n; reflexivity|]. destruct n as [|n]; [reflexivity|]. cbn [skipn Nat.add nth]. apply IH. Qed.
Lemma skipn_skip : forall (l : list N) n m, skipn n (skipn m l) = skipn (m + n) l.
Proof. induction l as [|a l IH]; intros n m; [rewrite !skipn_nil; reflexivity|]. destruct m as [|m]; [reflexivity|]. cbn [skipn Nat.add]. apply IH. Qed.
Lemma get64_ok : forall l o, (o + 8 <= length l)%nat -> get64 l (Z.of_nat o) = Ok (le_value (firstn 8 (skipn o l))).
Proof.
  intros l o L. unfold get64. rewrite !(aget_ok l _ 0) by lia. cbn [bind].
  replace (Z.to_nat (Z.of_nat o)) with (o + 0)%nat by lia. replace (Z.to_nat (Z.of_nat o + 1)) with (o + 1)%nat by lia. replace (Z.to_nat (Z.of_nat o + 2)) with (o + 2)%nat by lia. replace (Z.to_nat (Z.of_nat o + 3)) with (o + 3)%nat by lia.
  replace (Z.to_nat (Z.of_nat o + 4)) with (o + 4)%nat by lia. replace (Z.to_nat (Z.of_nat o + 5)) with (o + 5)%nat by lia. replace (Z.to_nat (Z.of_nat o + 6)) with (o + 6)%nat by lia. replace (Z.to_nat (Z.of_nat o + 7)) with (o + 7)%nat by lia.
  rewrite <- !nth_skipn. assert (L' : (8 <= length (skipn o l))%nat) by (rewrite skipn_length; lia).
  generalize dependent (skipn o l). intros m M. do 8 (destruct m as [|? m]; [cbn [length] in M; lia|]). cbn [nth firstn le_value]. rewrite N.mul_0_r, N.add_0_r. reflexivity.
Qed.
Lemma get64s_ok : forall n l o, (o + 8 * n <= length l)%nat -> get64s n l (Z.of_nat o) = Ok (map (fun i => le_value (firstn 8 (skipn (o + 8 * i) l))) (seq 0 n)).
Proof.
  induction n as [|n IH]; intros l o L; cbn [get64s]; [reflexivity|]. rewrite get64_ok by lia. cbn [bind].
  replace (Z.of_nat o + 8)%Z with (Z.of_nat (o + 8)) by lia. rewrite IH by lia. cbn [bind seq map]. rewrite Nat.add_0_r. f_equal. f_equal.
  rewrite <- seq_shift, map_map. apply map_ext. intro i. do 3 f_equal. lia.
Qed.
Lemma get_block : forall l o, (o + 64 <= length l)%nat -> get64s 8 l (Z.of_nat o) = Ok (le_words (firstn 64 (skipn o l))).
Proof.
  intros l o L. rewrite get64s_ok by lia. f_equal. unfold le_words. rewrite firstn_length, skipn_length. replace (Nat.min 64 (length l - o)) with 64%nat by lia. change (64 / 8)%nat with 8%nat.
  apply map_ext_in. intros i I. apply in_seq in I. f_equal. rewrite skipn_firstn_comm, firstn_firstn. replace (Nat.min 8 (64 - 8 * i)) with 8%nat by lia. f_equal. rewrite skipn_skip. reflexivity.
Qed.
Definition nth_block (l : list N) (i : nat) : list N := le_words (firstn 64 (skipn (64 * i) l)).
Lemma le_words_eight : forall l o, (o + 64 <= length l)%nat -> eight (le_words (firstn 64 (skipn o l))).
Proof. intros l o L. apply eight_len. unfold le_words. rewrite map_length, seq_length, firstn_length, skipn_length. replace (Nat.min 64 (length l - o)) with 64%nat by lia. reflexivity. Qed.
Lemma each_block_ok : forall f g, (forall v, eight v -> f v = Ok (g v)) -> forall n fuel l i, (n < fuel)%nat -> N.of_nat (S n) < 2 ^ 64 -> (64 * (i + S n) <= length l)%nat ->
  each_block fuel f l (Z.of_nat (64 * i)) (N.of_nat (S n)) = Ok (concat (map (fun i => g (nth_block l i)) (seq i (S n)))).
Proof.
  intros f g H. induction n as [|n IH]; intros fuel l i F C L; (destruct fuel as [|fuel]; [lia|]); cbn [each_block];
  rewrite get_block by lia; cbn [bind]; (rewrite H by (apply le_words_eight; lia)); cbn [bind].
  - change (w64 (N.of_nat 1 + (2 ^ 64 - 1)) =? 0) with true. cbn iota. cbn [seq map concat]. rewrite app_nil_r. reflexivity.
  - assert (W : w64 (N.of_nat (S (S n)) + (2 ^ 64 - 1)) = N.of_nat (S n)).
    { unfold w64. replace (N.of_nat (S (S n)) + (2 ^ 64 - 1)) with (N.of_nat (S n) + 1 * 2 ^ 64) by lia. rewrite N.mod_add by discriminate. apply N.mod_small. lia. }
    rewrite W. replace (N.of_nat (S n) =? 0) with false by (symmetry; apply N.eqb_neq; lia).
    replace (Z.of_nat (64 * i) + 64)%Z with (Z.of_nat (64 * S i)) by lia. rewrite IH by lia. cbn [bind]. reflexivity.
Qed.
Lemma process_ok : forall key tweak, length key = 8%nat -> length tweak = 2%nat -> forall n fuel l, (n < fuel)%nat -> N.of_nat (S n) < 2 ^ 64 -> (64 * S n <= length l)%nat ->
  process_blocks fuel tweak key l (N.of_nat (S n)) = Ok (concat (map (fun i => threefish key tweak (nth_block l i)) (seq 0 (S n)))) /\
  process_blocks64 fuel tweak key l (N.of_nat (S n)) = Ok (concat (map (fun i => threefish key tweak (nth_block l i)) (seq 0 (S n)))).
Proof.
  intros key tweak K T n fuel l F C L. destruct (eight_len key K) as (k0 & k1 & k2 & k3 & k4 & k5 & k6 & k7 & ->).
  destruct tweak as [|t0 [|t1 [|]]]; try discriminate. split.
  - unfold process_blocks. rewrite ref_schedule_ok, ref_tweak_ok. cbn [bind].
    exact (each_block_ok _ _ (ref_block_ok k0 k1 k2 k3 k4 k5 k6 k7 t0 t1) n fuel l 0 F C L).
  - unfold process_blocks64.
    change (aget [t0; t1] 0) with (Ok t0). change (aget [t0; t1] 1) with (Ok t1).
    set (key := [k0; k1; k2; k3; k4; k5; k6; k7]). change (aget key 0) with (Ok k0). change (aget key 1) with (Ok k1). change (aget key 2) with (Ok k2). change (aget key 3) with (Ok k3). change (aget key 4) with (Ok k4). change (aget key 5) with (Ok k5). change (aget key 6) with (Ok k6). change (aget key 7) with (Ok k7).
    cbn [bind].
    assert (P : N.lxor (N.lxor (N.lxor (N.lxor (N.lxor (N.lxor (N.lxor (N.lxor k0 k1) k2) k3) k4) k5) k6) k7) parity = fold_left N.lxor key 0x5555555555555555).
    { unfold key. cbn [fold_left]. unfold parity. generalize 6148914691236517205. intro p. rewrite (N.lxor_comm _ p). rewrite !N.lxor_assoc. reflexivity. }
    rewrite P. exact (each_block_ok _ _ (block64_ok k0 k1 k2 k3 k4 k5 k6 k7 t0 t1) n fuel l 0 F C L).
Qed.
