From Verif Require Import BaseLemmas ThreefishModel ThreefishSpec ThreefishLemmas ThreefishLemmas2 ThreefishLemmas3.
Open Scope N_scope.

(** The reference implementation is Threefish-512 of the Skein 1.1 paper on every
    key, tweak and sequence of blocks... *)
Theorem C32_reference : forall key tweak input n fuel, length key = 8%nat -> length tweak = 2%nat ->
  (0 < n)%nat -> N.of_nat n < 2 ^ 64 -> (64 * n <= length input)%nat -> (n <= fuel)%nat ->
  process_blocks fuel tweak key input (N.of_nat n) =
    Ok (concat (map (fun i => threefish key tweak (le_words (firstn 64 (skipn (64 * i) input)))) (seq 0 n))).
Proof. intros key tweak input [|n] fuel K T P C L F; [lia|]. apply (process_ok key tweak K T n fuel input); assumption. Qed.
(** ...so is the unrolled one... *)
Theorem C32_unrolled : forall key tweak input n fuel, length key = 8%nat -> length tweak = 2%nat ->
  (0 < n)%nat -> N.of_nat n < 2 ^ 64 -> (64 * n <= length input)%nat -> (n <= fuel)%nat ->
  process_blocks64 fuel tweak key input (N.of_nat n) =
    Ok (concat (map (fun i => threefish key tweak (le_words (firstn 64 (skipn (64 * i) input)))) (seq 0 n))).
Proof. intros key tweak input [|n] fuel K T P C L F; [lia|]. apply (process_ok key tweak K T n fuel input); assumption. Qed.
(** ...hence they agree... *)
Theorem C32_agree : forall key tweak input n fuel, length key = 8%nat -> length tweak = 2%nat ->
  (0 < n)%nat -> N.of_nat n < 2 ^ 64 -> (64 * n <= length input)%nat -> (n <= fuel)%nat ->
  exists out, process_blocks fuel tweak key input (N.of_nat n) = Ok out /\ process_blocks64 fuel tweak key input (N.of_nat n) = Ok out.
Proof. intros. eexists. split; [apply C32_reference; assumption|apply C32_unrolled; assumption]. Qed.
Example C32_agree_ex :
  process_blocks 2 [1; 2] [1; 2; 3; 4; 5; 6; 7; 8] (repeat 0 64 ++ repeat 255 64) 2 =
  process_blocks64 2 [1; 2] [1; 2; 3; 4; 5; 6; 7; 8] (repeat 0 64 ++ repeat 255 64) 2 /\
  match process_blocks64 1 [0; 0] (repeat 0 8) (repeat 0 64) 1 with Ok l => length l = 8%nat /\ nth 0 l 0 <> nth 1 l 0 | _ => False end.
Proof. split; [vm_compute; reflexivity|]. vm_compute. split; [reflexivity|discriminate]. Qed.

(** ...and for a fixed key and tweak the block function is a permutation of the
    eight-word blocks. *)
Definition is_block (v : list N) : Prop := length v = 8%nat /\ Forall (fun x => x < 2 ^ 64) v.
Theorem C32_permutation : forall key tweak, exists inverse, forall v, is_block v ->
  is_block (threefish key tweak v) /\ is_block (inverse v) /\
  inverse (threefish key tweak v) = v /\ threefish key tweak (inverse v) = v.
Proof. exact bij_threefish. Qed.
Example C32_permutation_ex : is_block [0; 1; 2; 3; 4; 5; 6; 2 ^ 64 - 1].
Proof. split; [reflexivity|]. repeat constructor. Qed.
(** The rotation of the specification is the rotation of the bits. *)
Theorem C32_rotation : forall x n i, x < 2 ^ 64 -> n <= 64 -> i < 64 -> N.testbit (rotate_left x n) ((i + n) mod 64) = N.testbit x i.
Proof.
  intros x n i X R I. change (rotate_left x n) with (rotl64 x n). rewrite rotl64_bit by assumption.
  pose proof (N.mod_lt (i + n) 64 ltac:(discriminate)) as M. replace ((i + n) mod 64 <? 64) with true by (symmetry; apply N.ltb_lt; exact M). cbn [andb]. clear M.
  destruct (N.lt_ge_cases (i + n) 64) as [L|L].
  - rewrite N.mod_small by exact L. replace (i + n <? n) with false by (symmetry; apply N.ltb_ge; lia). f_equal. lia.
  - assert (E : (i + n) mod 64 = i + n - 64) by (symmetry; apply N.mod_unique with (q := 1); lia). rewrite E.
    destruct (N.ltb_spec (i + n - 64) n) as [Q|Q]; f_equal; lia.
Qed.
Example C32_rotation_ex : rotate_left 0x8000000000000001 4 = 0x18.
Proof. reflexivity. Qed.

(** The sources ask never to be called with a count of zero: both forms would run past the end of the input. *)
Theorem C32_zero_count : forall key tweak input, length key = 8%nat -> length tweak = 2%nat -> length input = 64%nat ->
  exists why why', process_blocks 2 tweak key input 0 = UB why /\ process_blocks64 2 tweak key input 0 = UB why'.
Proof.
  intros key tweak input K T L. destruct (eight_len key K) as (k0 & k1 & k2 & k3 & k4 & k5 & k6 & k7 & ->). destruct tweak as [|t0 [|t1 [|]]]; try discriminate.
  assert (H : forall f g, (forall v, eight v -> f v = Ok (g v)) -> exists why, each_block 2 f input 0 0 = UB why).
  { intros f g H. cbn [each_block]. change 0%Z with (Z.of_nat 0). rewrite get_block by lia. cbn [bind]. rewrite H by (apply le_words_eight; lia). cbn [bind].
    change (w64 (0 + (2 ^ 64 - 1)) =? 0) with false. cbn iota.
    assert (G : exists why, get64s 8 input (Z.of_nat 0 + 64) = UB why).
    { cbn [get64s]. unfold get64. do 64 (destruct input as [|? input]; [discriminate|]). destruct input; [|discriminate]. eexists. reflexivity. }
    destruct G as [why G]. rewrite G. cbn [bind]. eauto. }
  unfold process_blocks, process_blocks64. rewrite ref_schedule_ok, ref_tweak_ok. cbn [bind].
  destruct (H _ _ (ref_block_ok k0 k1 k2 k3 k4 k5 k6 k7 t0 t1)) as [why E]. exists why. rewrite E.
  change (aget [t0; t1] 0) with (Ok t0). change (aget [t0; t1] 1) with (Ok t1).
  set (key := [k0; k1; k2; k3; k4; k5; k6; k7]). change (aget key 0) with (Ok k0). change (aget key 1) with (Ok k1). change (aget key 2) with (Ok k2). change (aget key 3) with (Ok k3). change (aget key 4) with (Ok k4). change (aget key 5) with (Ok k5). change (aget key 6) with (Ok k6). change (aget key 7) with (Ok k7).
  cbn [bind]. clear E.
  assert (P : N.lxor (N.lxor (N.lxor (N.lxor (N.lxor (N.lxor (N.lxor (N.lxor k0 k1) k2) k3) k4) k5) k6) k7) parity = fold_left N.lxor key 0x5555555555555555).
  { unfold key. cbn [fold_left]. unfold parity. generalize 6148914691236517205. intro p. rewrite (N.lxor_comm _ p). rewrite !N.lxor_assoc. reflexivity. }
  rewrite P. destruct (H _ _ (block64_ok k0 k1 k2 k3 k4 k5 k6 k7 t0 t1)) as [why' E]. exists why'. split; [reflexivity|exact E].
Qed.

(** ** The generator *)
Lemma value_put64 : forall x, x < 2 ^ 64 -> le_value (put64 x) = x.
Proof.
  intros x X. unfold put64. cbn [map le_value]. rewrite !N.shiftr_div_pow2.
  change (2 ^ (8 * 0)) with 1. rewrite N.div_1_r, N.mul_0_r, N.add_0_r.
  assert (D : forall y, y = y mod 256 + 256 * (y / 256)) by (intro y; rewrite N.add_comm; apply N.div_mod; discriminate).
  assert (Q : forall k' k, k' = k + 1 -> x / 2 ^ (8 * k') = x / 2 ^ (8 * k) / 256).
  { intros k' k ->. rewrite N.div_div by (try apply N.pow_nonzero; discriminate). f_equal. change 256 with (2 ^ 8). rewrite <- N.pow_add_r. f_equal. lia. }
  assert (T : x / 2 ^ (8 * 7) < 256) by (apply N.div_lt_upper_bound; [discriminate|]; change (2 ^ (8 * 7) * 256) with (2 ^ 64); exact X).
  rewrite (N.mod_small _ _ T). rewrite (Q 7 6 eq_refl), <- (D (x / 2 ^ (8 * 6))), (Q 6 5 eq_refl), <- (D (x / 2 ^ (8 * 5))), (Q 5 4 eq_refl), <- (D (x / 2 ^ (8 * 4))), (Q 4 3 eq_refl), <- (D (x / 2 ^ (8 * 3))), (Q 3 2 eq_refl), <- (D (x / 2 ^ (8 * 2))), (Q 2 1 eq_refl), <- (D (x / 2 ^ (8 * 1))).
  change (x / 2 ^ (8 * 1)) with (x / 256). symmetry. apply D.
Qed.
Lemma words_put64s : forall v, block v -> le_words (firstn 64 (skipn (64 * 0) (put64s v))) = v.
Proof.
  intros v V. destruct (block_eight v V) as (x0 & x1 & x2 & x3 & x4 & x5 & x6 & x7 & -> & B0 & B1 & B2 & B3 & B4 & B5 & B6 & B7).
  change (le_words (firstn 64 (skipn (64 * 0) (put64s [x0; x1; x2; x3; x4; x5; x6; x7])))) with
    [le_value (put64 x0); le_value (put64 x1); le_value (put64 x2); le_value (put64 x3); le_value (put64 x4); le_value (put64 x5); le_value (put64 x6); le_value (put64 x7)].
  rewrite !value_put64 by assumption. reflexivity.
Qed.
Lemma put64s_length : forall v, eight v -> length (put64s v) = 64%nat.
Proof. intros v (x0 & x1 & x2 & x3 & x4 & x5 & x6 & x7 & ->). reflexivity. Qed.
Definition half (x : N) (h : bool) : N := if h then x / 2 ^ 32 else x mod 2 ^ 32.
Lemma four_bytes : forall y, y mod 256 + 2 ^ 8 * (y / 2 ^ 8 mod 256) + 2 ^ 16 * (y / 2 ^ 16 mod 256) + 2 ^ 24 * (y / 2 ^ 24 mod 256) = y mod 2 ^ 32.
Proof.
  intro y. change (2 ^ 32) with (2 ^ 8 * (2 ^ 8 * (2 ^ 8 * 2 ^ 8))). rewrite !N.mod_mul_r by discriminate. rewrite !N.div_div by discriminate.
  change (2 ^ 8 * 2 ^ 8) with (2 ^ 16). change (2 ^ 16 * 2 ^ 8) with (2 ^ 24). change (2 ^ 8 * (2 ^ 16)) with (2 ^ 24). change 256 with (2 ^ 8).
  generalize (y mod 2 ^ 8) ((y / 2 ^ 8) mod 2 ^ 8) ((y / 2 ^ 16) mod 2 ^ 8) ((y / 2 ^ 24) mod 2 ^ 8). intros. change (2 ^ 8) with 256. change (2 ^ 16) with 65536. change (2 ^ 24) with 16777216. lia.
Qed.
Lemma read_half : forall v p (h : bool), block v -> (p < 8)%nat ->
  let l := put64s v in let o := (8 * p + if h then 4 else 0)%nat in
  nth o l 0 + 2 ^ 8 * nth (o + 1) l 0 + 2 ^ 16 * nth (o + 2) l 0 + 2 ^ 24 * nth (o + 3) l 0 = half (nth p v 0) h.
Proof.
  intros v p h V P l o. subst l o. destruct (block_eight v V) as (x0 & x1 & x2 & x3 & x4 & x5 & x6 & x7 & -> & B0 & B1 & B2 & B3 & B4 & B5 & B6 & B7).
  assert (Lo : forall x, x < 2 ^ 64 -> N.shiftr x (8 * 0) mod 256 + 2 ^ 8 * (N.shiftr x (8 * 1) mod 256) + 2 ^ 16 * (N.shiftr x (8 * 2) mod 256) + 2 ^ 24 * (N.shiftr x (8 * 3) mod 256) = half x false).
  { intros x _. rewrite !N.shiftr_div_pow2. change (2 ^ (8 * 0)) with 1. rewrite N.div_1_r. apply four_bytes. }
  assert (Hi : forall x, x < 2 ^ 64 -> N.shiftr x (8 * 4) mod 256 + 2 ^ 8 * (N.shiftr x (8 * 5) mod 256) + 2 ^ 16 * (N.shiftr x (8 * 6) mod 256) + 2 ^ 24 * (N.shiftr x (8 * 7) mod 256) = half x true).
  { intros x X. rewrite !N.shiftr_div_pow2. unfold half. rewrite <- (N.mod_small (x / 2 ^ 32) (2 ^ 32)) by (apply N.div_lt_upper_bound; [discriminate|exact X]).
    rewrite <- four_bytes. rewrite !N.div_div by discriminate. reflexivity. }
  do 8 (destruct p as [|p]; [destruct h; [apply Hi|apply Lo]; assumption|]). lia.
Qed.

Definition key0 : list N := le_words (byte_run 64 64).
Definition tweak0 : list N := le_words (byte_run 112 16).
Lemma consts : tf_key = key0 /\ tf_tweak0 = tweak0.
Proof. vm_compute. split; reflexivity. Qed.
Lemma feedback_block : forall s n, s < 2 ^ 64 -> block (feedback s n).
Proof.
  intros s n S. induction n as [|n IH]; cbn [feedback].
  - destruct (bij_threefish (le_words (byte_run 64 64)) (le_words (byte_run 112 16))) as [g G]. apply G. apply block_list; (exact S || reflexivity).
  - destruct (bij_threefish (le_words (byte_run 64 64)) [112; nth 1 (le_words (byte_run 112 16)) 0]) as [g G]. apply G, IH.
Qed.
Definition at_word (s : N) (n : nat) (st : tf_state) : Prop :=
  t_tweak st = [112; nth 1 tweak0 0] /\ t_key st = key0 /\
  exists b c, (c <= 16)%nat /\ t_block st = put64s (feedback s b) /\ t_pos st = N.of_nat (4 * c) /\ n = (16 * b + c)%nat.
Lemma set_ok : forall s, s < 2 ^ 64 -> exists st, tf_set s = Ok st /\ at_word s 0 st.
Proof.
  intros s S. unfold tf_set. destruct consts as [-> ->].
  assert (E : process_blocks64 1 tweak0 key0 (put64 s ++ repeat 0 56) 1 = Ok (feedback s 0)).
  { pose proof (C32_unrolled key0 tweak0 (put64 s ++ repeat 0 56) 1 1 eq_refl eq_refl ltac:(lia) eq_refl ltac:(cbn; lia) ltac:(lia)) as H. change (N.of_nat 1) with 1 in H. rewrite H. clear H. cbn [seq map concat]. rewrite app_nil_r. f_equal. cbn [feedback]. unfold key0, tweak0. f_equal.
    change (le_words (firstn 64 (skipn (64 * 0) (put64 s ++ repeat 0 56)))) with [le_value (put64 s); 0; 0; 0; 0; 0; 0; 0]. rewrite value_put64 by exact S. reflexivity. }
  rewrite E. cbn [bind]. eexists. split; [reflexivity|]. split; [reflexivity|]. split; [reflexivity|]. exists 0%nat, 0%nat. cbn [t_block t_pos]. repeat split; lia.
Qed.
Lemma next_block : forall s b, s < 2 ^ 64 -> process_blocks64 1 [112; nth 1 tweak0 0] key0 (put64s (feedback s b)) 1 = Ok (feedback s (S b)).
Proof.
  intros s b S. pose proof (feedback_block s b S) as V. assert (L : length (put64s (feedback s b)) = 64%nat) by (apply put64s_length; destruct V as [L _]; apply eight_len, L).
  pose proof (C32_unrolled key0 [112; nth 1 tweak0 0] (put64s (feedback s b)) 1 1 eq_refl eq_refl ltac:(lia) eq_refl ltac:(lia) ltac:(lia)) as H. change (N.of_nat 1) with 1 in H. rewrite H. clear H.
  cbn [seq map concat]. rewrite app_nil_r, words_put64s by exact V. reflexivity.
Qed.
Lemma get_ok : forall s n st, s < 2 ^ 64 -> at_word s n st -> exists st', tf_get st = Ok (feedback_word s n, st') /\ at_word s (S n) st'.
Proof.
  intros s n st S (E1 & E1' & b & c & C & E2 & E3 & E4). unfold tf_get.
  assert (N : exists st1 b1 c1, (if 64 <? t_pos st + 4 then do X <- process_blocks64 1 (t_tweak st) (t_key st) (t_block st) 1 ;; Ok {| t_tweak := t_tweak st; t_key := t_key st; t_block := put64s X; t_pos := 0 |} else Ok st) = Ok st1 /\
     t_tweak st1 = [112; nth 1 tweak0 0] /\ t_key st1 = key0 /\ (c1 < 16)%nat /\ t_block st1 = put64s (feedback s b1) /\ t_pos st1 = N.of_nat (4 * c1) /\ n = (16 * b1 + c1)%nat).
  { destruct (N.ltb_spec 64 (t_pos st + 4)) as [H|H].
    - rewrite E1, E1', E2, next_block by exact S. cbn [bind]. eexists _, (Datatypes.S b), 0%nat. split; [reflexivity|]. cbn [t_tweak t_key t_block t_pos]. repeat split; lia.
    - exists st, b, c. split; [reflexivity|]. repeat split; try assumption. lia. }
  clear E1 E1' b c C E2 E3 E4. destruct N as (st1 & b & c & E0 & E1 & E1' & C & E2 & E3 & E4). rewrite E0. cbn [bind]. clear E0.
  pose proof (feedback_block s b S) as V. assert (L : length (put64s (feedback s b)) = 64%nat) by (apply put64s_length; destruct V as [L _]; apply eight_len, L).
  rewrite E2, E3. rewrite !(aget_ok _ _ 0) by lia. cbn [bind]. eexists. split; [f_equal; f_equal|].
  - pose proof (read_half (feedback s b) (c / 2) (Nat.odd c) V ltac:(apply Nat.div_lt_upper_bound; lia)) as R. cbv zeta in R.
    assert (OC : (8 * (c / 2) + (if Nat.odd c then 4 else 0))%nat = (4 * c)%nat).
    { pose proof (Nat.div_mod c 2 ltac:(lia)) as D. pose proof (Nat.mod_upper_bound c 2 ltac:(lia)). unfold Nat.odd. rewrite Nat.even_spec || idtac.
      destruct (Nat.Even_or_Odd c) as [[k K]|[k K]]; subst c.
      - replace (Nat.even (2 * k)) with true by (symmetry; apply Nat.even_spec; exists k; reflexivity). cbn [negb]. replace (2 * k / 2)%nat with k by (rewrite Nat.mul_comm, Nat.div_mul; lia). lia.
      - replace (Nat.even (2 * k + 1)) with false by (symmetry; rewrite <- Bool.not_true_iff_false, Nat.even_spec; intros [m M]; lia). cbn [negb].
        replace ((2 * k + 1) / 2)%nat with k by (apply Nat.div_unique with (r := 1%nat); lia). lia. }
    rewrite OC in R.
    replace (Z.to_nat (Z.of_N (N.of_nat (4 * c)))) with (4 * c)%nat by lia. replace (Z.to_nat (Z.of_N (N.of_nat (4 * c)) + 1)) with (4 * c + 1)%nat by lia.
    replace (Z.to_nat (Z.of_N (N.of_nat (4 * c)) + 2)) with (4 * c + 2)%nat by lia. replace (Z.to_nat (Z.of_N (N.of_nat (4 * c)) + 3)) with (4 * c + 3)%nat by lia.
    rewrite R. unfold feedback_word, half. replace (n / 16)%nat with b by (apply Nat.div_unique with (r := c); lia). replace (n mod 16)%nat with c by (apply Nat.mod_unique with (q := b); lia).
    replace (Nat.even n) with (Nat.even c); [unfold Nat.odd; destruct (Nat.even c); reflexivity|].
    subst n. rewrite Nat.even_add. replace (Nat.even (16 * b)) with true by (symmetry; apply Nat.even_spec; exists (8 * b)%nat; lia). destruct (Nat.even c); reflexivity.
  - split; [exact E1|]. split; [exact E1'|]. exists b, (Datatypes.S c). cbn [t_block t_pos]. repeat split; (assumption || lia).
Qed.
Lemma outputs_ok : forall s, s < 2 ^ 64 -> forall n m st, at_word s m st -> exists st', tf_outputs n st = Ok (map (feedback_word s) (seq m n), st') /\ at_word s (m + n) st'.
Proof.
  intros s S. induction n as [|n IH]; intros m st A; cbn [tf_outputs seq map].
  - exists st. rewrite Nat.add_0_r. auto.
  - destruct (get_ok s m st S A) as (st1 & E1 & A1). rewrite E1. cbn [bind]. destruct (IH _ _ A1) as (st2 & E2 & A2). rewrite E2. cbn [bind].
    exists st2. split; [reflexivity|]. replace (m + Datatypes.S n)%nat with (Datatypes.S m + n)%nat by lia. exact A2.
Qed.

(** The generator's outputs are, for every 64-bit seed, the words of the
    Threefish-512 output-feedback stream described in the specification: no call
    is undefined, no output exceeds the declared maximum 2^32 - 1, and the
    sequence depends on the seed alone. *)
Theorem C75_stream : forall seed n, seed < 2 ^ 64 ->
  exists st st', tf_set seed = Ok st /\ tf_outputs n st = Ok (map (feedback_word seed) (seq 0 n), st') /\ forall k, feedback_word seed k < 2 ^ 32.
Proof.
  intros seed n S. destruct (set_ok seed S) as (st & E & A). destruct (outputs_ok seed S n 0 st A) as (st' & E' & _). exists st, st'. split; [exact E|]. split; [exact E'|].
  intro k. unfold feedback_word. pose proof (feedback_block seed (k / 16) S) as [L F]. rewrite Forall_forall in F.
  destruct (Nat.even k); [apply N.mod_lt; discriminate|]. apply N.div_lt_upper_bound; [discriminate|]. change (2 ^ 32 * 2 ^ 32) with (2 ^ 64). apply F, nth_In.
  rewrite L. apply Nat.div_lt_upper_bound; [lia|]. pose proof (Nat.mod_upper_bound k 16). lia.
Qed.
Example C75_stream_ex : match (do st <- tf_set 1 ;; tf_outputs 20 st) with Ok (l, _) => length l = 20%nat /\ nth 0 l 0 <> nth 16 l 0 | _ => False end.
Proof. vm_compute. split; [reflexivity|discriminate]. Qed.

Lemma even_word : forall s p, (p < 8)%nat -> feedback_word s (2 * p) = nth p (feedback s 0) 0 mod 2 ^ 32 /\ feedback_word s (2 * p + 1) = nth p (feedback s 0) 0 / 2 ^ 32.
Proof.
  intros s p P. unfold feedback_word. rewrite (Nat.div_small (2 * p) 16), (Nat.mod_small (2 * p) 16), (Nat.div_small (2 * p + 1) 16), (Nat.mod_small (2 * p + 1) 16) by lia.
  rewrite (Nat.add_comm (2 * p) 1). rewrite Nat.even_add, Nat.even_mul. cbn [Nat.even orb Bool.eqb].
  replace (2 * p / 2)%nat with p by (rewrite Nat.mul_comm; symmetry; apply Nat.div_mul; discriminate).
  replace ((1 + 2 * p) / 2)%nat with p by (apply Nat.div_unique with (r := 1%nat); lia). split; reflexivity.
Qed.
(** Different seeds differ already within the first sixteen outputs. *)
Theorem C75_seed_distinct : forall s s' st st' l l' u u', s < 2 ^ 64 -> s' < 2 ^ 64 -> s <> s' ->
  tf_set s = Ok st -> tf_set s' = Ok st' -> tf_outputs 16 st = Ok (l, u) -> tf_outputs 16 st' = Ok (l', u') -> l <> l'.
Proof.
  intros s s' st st' l l' u u' S S' D E E' O O' EQ. apply D.
  destruct (set_ok s S) as (st1 & F & A). rewrite E in F. injection F as <-. destruct (set_ok s' S') as (st1' & F' & A'). rewrite E' in F'. injection F' as <-.
  destruct (outputs_ok s S 16 0 st A) as (v & P & _). rewrite O in P. assert (L : l = map (feedback_word s) (seq 0 16)) by congruence.
  destruct (outputs_ok s' S' 16 0 st' A') as (v' & P' & _). rewrite O' in P'. assert (L' : l' = map (feedback_word s') (seq 0 16)) by congruence.
  assert (W : forall k, (k < 16)%nat -> feedback_word s k = feedback_word s' k).
  { intros k K. assert (N1 : forall t, nth k (map (feedback_word t) (seq 0 16)) 0 = feedback_word t k).
    { intro t. rewrite (nth_indep _ 0 (feedback_word t 0)) by (rewrite map_length, seq_length; exact K). rewrite map_nth, seq_nth by exact K. reflexivity. }
    rewrite <- !N1. rewrite <- L, <- L', EQ. reflexivity. }
  assert (B : feedback s 0 = feedback s' 0).
  { pose proof (feedback_block s 0 S) as [L1 _]. pose proof (feedback_block s' 0 S') as [L2 _].
    apply nth_ext with (d := 0) (d' := 0); [lia|]. intros p Q. rewrite L1 in Q.
    pose proof (W (2 * p)%nat ltac:(clear - Q; lia)) as W0. pose proof (W (2 * p + 1)%nat ltac:(clear - Q; lia)) as W1.
    destruct (even_word s p Q) as [A1 A2]. destruct (even_word s' p Q) as [B1 B2]. rewrite A1, B1 in W0. rewrite A2, B2 in W1.
    rewrite (N.div_mod (nth p (feedback s 0) 0) (2 ^ 32)), (N.div_mod (nth p (feedback s' 0) 0) (2 ^ 32)) by discriminate. rewrite W0, W1. reflexivity. }
  cbn [feedback] in B. destruct (bij_threefish (le_words (byte_run 64 64)) (le_words (byte_run 112 16))) as [g G].
  destruct (G [s; 0; 0; 0; 0; 0; 0; 0]) as (_ & _ & G1 & _); [apply block_list; (exact S || reflexivity)|].
  destruct (G [s'; 0; 0; 0; 0; 0; 0; 0]) as (_ & _ & G2 & _); [apply block_list; (exact S' || reflexivity)|].
  rewrite B in G1. rewrite G1 in G2. congruence.
Qed.
Example C75_seed_distinct_ex :
  match (do st <- tf_set 1 ;; tf_outputs 16 st), (do st <- tf_set (1 + 2 ^ 40) ;; tf_outputs 16 st) with Ok (l, _), Ok (l', _) => l <> l' | _, _ => False end.
Proof. vm_compute. discriminate. Qed.

Print Assumptions C32_reference.
Print Assumptions C32_unrolled.
Print Assumptions C32_agree.
Print Assumptions C32_permutation.
Print Assumptions C32_rotation.
Print Assumptions C32_zero_count.
Print Assumptions C75_stream.
Print Assumptions C75_seed_distinct.
