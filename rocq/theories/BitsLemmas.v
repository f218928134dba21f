(** Proofs about BitsModel.v *)
From Verif Require Export BaseLemmas BitsModel BitsSpec.
Open Scope N_scope.

(** Solve equalities of booleans made of comparisons and one testbit by
    splitting on the comparisons. *)
Ltac split_cmp :=
  repeat match goal with
  | |- context [?a <? ?b] => destruct (N.ltb_spec a b); cbn [andb orb negb]
  | |- context [?a <=? ?b] => destruct (N.leb_spec a b); cbn [andb orb negb]
  | |- context [?a =? ?b] => destruct (N.eqb_spec a b); cbn [andb orb negb]
  end.

(** ** number_of_bits *)
Lemma number_of_bits_lt f n : number_of_bits f n < 2 ^ N.of_nat n.
Proof.
  induction n as [|n IH]; [reflexivity|]. cbn [number_of_bits].
  replace (N.of_nat (S n)) with (N.succ (N.of_nat n)) by lia. rewrite N.pow_succ_r'.
  destruct (f (N.of_nat n)); lia.
Qed.
Lemma testbit_number_of_bits f n i :
  N.testbit (number_of_bits f n) i = (i <? N.of_nat n) && f i.
Proof.
  induction n as [|n IH].
  - cbn [number_of_bits]. rewrite N.bits_0. destruct (N.ltb_spec i (N.of_nat 0)); auto; lia.
  - cbn [number_of_bits].
    assert (E : N.testbit (number_of_bits f n + (if f (N.of_nat n) then 2 ^ N.of_nat n else 0)) i
       = N.testbit (number_of_bits f n) i
         || N.testbit (if f (N.of_nat n) then 2 ^ N.of_nat n else 0) i).
    { apply testbit_add_disjoint. intro j. rewrite andb_comm.
      destruct (f (N.of_nat n)); [|rewrite N.bits_0; auto].
      rewrite N.pow2_bits_eqb. destruct (N.eqb_spec (N.of_nat n) j); auto.
      subst. rewrite (testbit_lt _ (N.of_nat n)); auto; [apply number_of_bits_lt|lia]. }
    rewrite E, IH. destruct (f (N.of_nat n)) eqn:F.
    + rewrite N.pow2_bits_eqb. destruct (N.eqb_spec (N.of_nat n) i).
      * subst i. rewrite F. destruct (N.ltb_spec (N.of_nat n) (N.of_nat (S n))); [|lia].
        rewrite orb_true_r. reflexivity.
      * rewrite orb_false_r. f_equal. split_cmp; auto; lia.
    + rewrite N.bits_0, orb_false_r.
      destruct (N.eqb_spec (N.of_nat n) i).
      * subst i. rewrite F, !andb_false_r. auto.
      * f_equal. split_cmp; auto; lia.
Qed.
Lemma number_of_bits_ext f g n :
  (forall k, k < N.of_nat n -> f k = g k) -> number_of_bits f n = number_of_bits g n.
Proof.
  intros H. apply N.bits_inj. intro i. rewrite !testbit_number_of_bits.
  destruct (N.ltb_spec i (N.of_nat n)); simpl; auto.
Qed.
Lemma number_of_bits_id x n : x < 2 ^ N.of_nat n -> number_of_bits (N.testbit x) n = x.
Proof.
  intros H. apply N.bits_inj. intro i. rewrite testbit_number_of_bits.
  destruct (N.ltb_spec i (N.of_nat n)); simpl; auto.
  symmetry. eapply testbit_lt; eauto.
Qed.

(** ** Masks *)
Lemma mask_step_ones k : k < 32 -> mask_step (N.ones k) = N.ones (k + 1).
Proof.
  intros Hk. unfold mask_step, add32.
  assert (Hw : w32 (N.shiftl (N.ones k) 1) = N.shiftl (N.ones k) 1).
  { apply w32_small. rewrite N.shiftl_mul_pow2, N.ones_equiv.
    assert (2 ^ k <= 2 ^ 31) by (apply N.pow_le_mono_r; lia).
    change (2 ^ 1) with 2. change (2 ^ 32) with (2 * 2 ^ 31). lia. }
  rewrite Hw.
  assert (E : N.shiftl (N.ones k) 1 + 1 = N.ones (k + 1)).
  { rewrite N.shiftl_mul_pow2, !N.ones_equiv. replace (k + 1) with (N.succ k) by lia.
    rewrite N.pow_succ_r'. change (2 ^ 1) with 2.
    assert (2 ^ k <> 0) by (apply N.pow_nonzero; discriminate). lia. }
  rewrite E. apply w32_small. rewrite N.ones_equiv.
  assert (2 ^ (k + 1) <= 2 ^ 32) by (apply N.pow_le_mono_r; lia).
  assert (2 ^ (k + 1) <> 0) by (apply N.pow_nonzero; discriminate). lia.
Qed.
Lemma mask_iter k : k < 32 -> N.iter k mask_step 1 = N.ones (k + 1).
Proof.
  induction k as [|k IH] using N.peano_ind; intros Hk; [reflexivity|].
  rewrite N.iter_succ, IH by lia. rewrite mask_step_ones by lia. f_equal; lia.
Qed.
Lemma mask_iter_full k : 31 <= k -> N.iter k mask_step 1 = N.ones 32.
Proof.
  induction k as [|k IH] using N.peano_ind; intros Hk; [lia|].
  destruct (N.eq_dec (N.succ k) 31) as [E|E].
  - rewrite E. rewrite mask_iter by lia. reflexivity.
  - rewrite N.iter_succ, IH by lia. reflexivity.
Qed.
Lemma lmask_iter k : k < 32 -> N.iter k (fun m => w32 (N.shiftl m 1)) 1 = 2 ^ k.
Proof.
  induction k as [|k IH] using N.peano_ind; intros Hk; [reflexivity|].
  rewrite N.iter_succ, IH by lia. rewrite N.shiftl_mul_pow2.
  rewrite N.pow_succ_r'. rewrite w32_small; [change (2^1) with 2; lia|].
  change (2 ^ 32) with (2 * 2 ^ 31). assert (2 ^ k < 2 ^ 31) by (apply N.pow_lt_mono_r; lia).
  change (2 ^ 1) with 2. lia.
Qed.

Lemma b_umask_ok bstart bstop : bstart <= bstop -> bstop <= 31 ->
  b_umask bstart bstop = Ok (N.shiftl (N.ones (bstop - bstart + 1)) (31 - bstop)).
Proof.
  intros H1 H2. unfold b_umask.
  destruct (N.ltb_spec 31 bstop); [lia|]. destruct (N.ltb_spec bstop bstart); [lia|]. simpl orb. cbv iota.
  rewrite (sub32_small bstop bstart) by lia. unfold add32. rewrite w32_small by lia.
  cbv zeta. rewrite mask_iter by lia.
  rewrite (sub32_small 32) by lia. rewrite sub32_small by lia.
  rewrite shl32_ok by lia.
  replace (bstop - bstart + 1 - 1 + 1) with (bstop - bstart + 1) by lia.
  replace (32 - (bstop - bstart + 1) - bstart) with (31 - bstop) by lia.
  f_equal. apply w32_small. apply lt_pow2_testbit. intros i Hi.
  rewrite testbit_shiftl, testbit_ones. split_cmp; auto; lia.
Qed.
Lemma b_umask_exit bstart bstop : bstop < bstart \/ 31 < bstop -> b_umask bstart bstop = Exit 0.
Proof.
  intros H. unfold b_umask. destruct (N.ltb_spec 31 bstop); auto.
  destruct (N.ltb_spec bstop bstart); auto; lia.
Qed.

Lemma b_umask_spec bstart bstop : bstart <= bstop -> bstop <= 31 ->
  exists m, b_umask bstart bstop = Ok m /\ m < 2 ^ 32 /\
    forall k, k < 32 -> msb m k = (bstart <=? k) && (k <=? bstop).
Proof.
  intros H1 H2. eexists. split; [apply b_umask_ok; auto|]. split.
  - apply lt_pow2_testbit. intros i Hi. rewrite testbit_shiftl, testbit_ones.
    split_cmp; auto; lia.
  - intros k Hk. unfold msb. rewrite testbit_shiftl, testbit_ones. split_cmp; auto; lia.
Qed.

(** Bits of the result of [b_window], least significant first. *)
Definition window_val (input bstart bstop boffset : N) : N :=
  let x := N.land input (N.shiftl (N.ones (bstop - bstart + 1)) (31 - bstop)) in
  if boffset <? bstart then w32 (N.shiftl x (bstart - boffset))
  else N.shiftr x (boffset - bstart).

Lemma b_window_ok input bstart bstop boffset :
  bstart <= bstop -> bstop <= 31 -> boffset <= 31 ->
  b_window input bstart bstop boffset = Ok (window_val input bstart bstop boffset).
Proof.
  intros H1 H2 H3. unfold b_window, window_val.
  destruct (N.ltb_spec 31 bstop); [lia|]. destruct (N.ltb_spec bstop bstart); [lia|]. simpl orb.
  destruct (N.ltb_spec 31 boffset); [lia|]. cbv iota zeta.
  rewrite b_umask_ok by auto. cbn [bind].
  destruct (N.ltb_spec boffset bstart) as [Hb|Hb].
  - destruct (Z.ltb_spec 0 (Z.of_N bstart - Z.of_N boffset)); [|lia].
    rewrite shl32_ok by lia. do 3 f_equal. lia.
  - destruct (Z.ltb_spec 0 (Z.of_N bstart - Z.of_N boffset)); [lia|].
    rewrite shr32_ok by lia. do 2 f_equal. lia.
Qed.

Lemma b_window_exit input bstart bstop boffset :
  bstop < bstart \/ 31 < bstop \/ 31 < boffset ->
  b_window input bstart bstop boffset = Exit 0.
Proof.
  intros H. unfold b_window. destruct (N.ltb_spec 31 bstop); auto.
  destruct (N.ltb_spec bstop bstart); auto. destruct (N.ltb_spec 31 boffset); auto; lia.
Qed.

(** least-significant-first description of the window *)
Lemma testbit_window input bstart bstop boffset i :
  input < 2 ^ 32 -> bstart <= bstop -> bstop <= 31 -> boffset <= 31 ->
  N.testbit (window_val input bstart bstop boffset) i =
  (i <=? 31 - boffset) && (31 + bstart <=? i + boffset + bstop)
    && N.testbit input (i + boffset - bstart).
Proof.
  intros Hi H1 H2 H3. unfold window_val.
  destruct (N.ltb_spec boffset bstart).
  - rewrite testbit_w32, testbit_shiftl, N.land_spec, testbit_shiftl, testbit_ones.
    destruct (N.leb_spec (bstart - boffset) i).
    + replace (i - (bstart - boffset)) with (i + boffset - bstart) by lia.
      destruct (N.testbit input (i + boffset - bstart)) eqn:T; cbn [andb];
        rewrite ?andb_true_r, ?andb_false_r; auto.
      assert (i + boffset - bstart < 32).
      { apply N.nle_gt. intro. rewrite (testbit_lt32 input) in T; auto; discriminate. }
      split_cmp; auto; lia.
    + cbn [andb]. rewrite andb_false_r. split_cmp; auto; try lia.
  - rewrite testbit_shiftr, N.land_spec, testbit_shiftl, testbit_ones.
    replace (i + (boffset - bstart)) with (i + boffset - bstart) by lia.
    destruct (N.testbit input (i + boffset - bstart)) eqn:T; cbn [andb];
      rewrite ?andb_true_r, ?andb_false_r; auto.
    assert (i + boffset - bstart < 32).
    { apply N.nle_gt. intro. rewrite (testbit_lt32 input) in T; auto; discriminate. }
    split_cmp; auto; lia.
Qed.
Lemma window_lt input bstart bstop boffset :
  input < 2 ^ 32 -> bstart <= bstop -> bstop <= 31 -> boffset <= 31 ->
  window_val input bstart bstop boffset < 2 ^ 32.
Proof.
  intros. apply lt_pow2_testbit. intros i Hi. rewrite testbit_window by auto.
  split_cmp; auto; lia.
Qed.

Lemma b_window_spec input bstart bstop boffset :
  input < 2 ^ 32 -> bstart <= bstop -> bstop <= 31 -> boffset <= 31 ->
  exists r, b_window input bstart bstop boffset = Ok r /\ r < 2 ^ 32 /\
    forall k, k < 32 ->
      msb r k = (boffset <=? k) && (k <=? boffset + (bstop - bstart))
                && msb input (k - boffset + bstart).
Proof.
  intros Hi H1 H2 H3. eexists. split; [apply b_window_ok; auto|].
  split; [apply window_lt; auto|].
  intros k Hk. unfold msb. rewrite testbit_window by auto.
  destruct (N.leb_spec boffset k); cbn [andb].
  - replace (31 - k + boffset - bstart) with (31 - (k - boffset + bstart)) by lia.
    split_cmp; auto; try lia.
  - split_cmp; auto; lia.
Qed.

(** ** Rotations *)
Lemma add32_disjoint a b i :
  a < 2 ^ 32 -> b < 2 ^ 32 ->
  (forall i, N.testbit a i && N.testbit b i = false) ->
  N.testbit (add32 a b) i = N.testbit a i || N.testbit b i.
Proof.
  intros Ha Hb H. unfold add32. rewrite testbit_w32, testbit_add_disjoint by auto.
  destruct (N.ltb_spec i 32); auto. rewrite !testbit_lt32 by auto. auto.
Qed.

Lemma b_rotate_left_spec x s : x < 2 ^ 32 -> 1 <= s -> s <= 31 ->
  exists r, b_rotate_left x s = Ok r /\ r < 2 ^ 32 /\
    forall k, k < 32 -> msb r k = msb x ((k + s) mod 32).
Proof.
  intros Hx H1 H2. unfold b_rotate_left.
  rewrite (sub32_small s 1), (sub32_small 32 s) by lia.
  rewrite b_window_ok by lia. cbn [bind]. rewrite shl32_ok by lia. cbn [bind].
  eexists. split; [reflexivity|]. split; [apply w32_lt|].
  intros k Hk. unfold msb.
  rewrite add32_disjoint; [|apply w32_lt|apply window_lt; lia|].
  - rewrite testbit_w32, testbit_shiftl, testbit_window by lia.
    destruct (N.ltb_spec (k + s) 32).
    + rewrite N.mod_small by lia. replace (31 - k - s) with (31 - (k + s)) by lia.
      split_cmp; auto; try lia; rewrite ?orb_false_r; auto.
    + replace ((k + s) mod 32) with (k + s - 32) by
        (symmetry; replace (k + s) with (k + s - 32 + 1 * 32) by lia;
         rewrite N.mod_add by lia; rewrite N.mod_small; lia).
      replace (31 - k + (32 - s) - 0) with (31 - (k + s - 32)) by lia.
      split_cmp; auto; try lia.
  - intro i. rewrite testbit_w32, testbit_shiftl, testbit_window by lia.
    split_cmp; rewrite ?andb_false_r; auto; lia.
Qed.

Lemma b_rotate_right_spec x s : x < 2 ^ 32 -> s <= 31 ->
  exists r, b_rotate_right x s = Ok r /\ r < 2 ^ 32 /\
    forall k, k < 32 -> msb r ((k + s) mod 32) = msb x k.
Proof.
  intros Hx H2. unfold b_rotate_right. destruct (N.eqb_spec s 0).
  { subst. exists x. repeat split; auto. intros k Hk. rewrite N.add_0_r, N.mod_small; auto. }
  rewrite (sub32_small 32 s) by lia.
  rewrite b_window_ok by lia. cbn [bind]. rewrite shr32_ok by lia. cbn [bind].
  assert (Hsr : N.shiftr x s < 2 ^ 32).
  { apply lt_pow2_testbit. intros i Hi. rewrite testbit_shiftr. apply testbit_lt32; auto; lia. }
  eexists. split; [reflexivity|]. split; [apply w32_lt|].
  intros k Hk. unfold msb.
  rewrite add32_disjoint; [|auto|apply window_lt; lia|].
  - rewrite testbit_shiftr, testbit_window by lia.
    destruct (N.ltb_spec (k + s) 32).
    + rewrite N.mod_small by lia. replace (31 - (k + s) + s) with (31 - k) by lia.
      split_cmp; auto; try lia; rewrite orb_false_r; auto.
    + replace ((k + s) mod 32) with (k + s - 32) by
        (symmetry; replace (k + s) with (k + s - 32 + 1 * 32) by lia;
         rewrite N.mod_add by lia; rewrite N.mod_small; lia).
      rewrite (testbit_lt32 x (31 - (k + s - 32) + s)) by lia.
      replace (31 - (k + s - 32) + 0 - (32 - s)) with (31 - k) by lia.
      split_cmp; auto; try lia.
  - intro i. rewrite testbit_shiftr, testbit_window by lia.
    destruct (N.ltb_spec (i + s) 32).
    + split_cmp; rewrite ?andb_false_r; auto; lia.
    + rewrite testbit_lt32 by (auto; lia). auto.
Qed.

Lemma msb_inj x y : x < 2 ^ 32 -> y < 2 ^ 32 ->
  (forall k, k < 32 -> msb x k = msb y k) -> x = y.
Proof.
  intros Hx Hy H. apply N.bits_inj. intro i.
  destruct (N.ltb_spec i 32).
  - specialize (H (31 - i)). unfold msb in H. replace (31 - (31 - i)) with i in H by lia.
    apply H. lia.
  - rewrite !testbit_lt32 by auto. auto.
Qed.

Lemma b_rotate_inverse x s : x < 2 ^ 32 -> 1 <= s -> s <= 31 ->
  (do r <- b_rotate_left x s ;; b_rotate_right r s) = Ok x /\
  (do r <- b_rotate_right x s ;; b_rotate_left r s) = Ok x.
Proof.
  intros Hx H1 H2.
  destruct (b_rotate_left_spec x s) as (l & El & Hl & Bl); auto.
  destruct (b_rotate_right_spec x s) as (r & Er & Hr & Br); auto.
  rewrite El, Er. cbn [bind].
  destruct (b_rotate_right_spec l s) as (lr & Elr & Hlr & Blr); auto.
  destruct (b_rotate_left_spec r s) as (rl & Erl & Hrl & Brl); auto.
  rewrite Elr, Erl. split; f_equal; apply msb_inj; auto; intros k Hk.
  - specialize (Blr ((k + (32 - s)) mod 32)).
    replace (((k + (32 - s)) mod 32 + s) mod 32) with k in Blr.
    2:{ rewrite N.add_mod_idemp_l by lia. replace (k + (32 - s) + s) with (k + 1 * 32) by lia.
        rewrite N.mod_add, N.mod_small by lia. auto. }
    rewrite Blr by (apply N.mod_lt; lia). rewrite Bl by (apply N.mod_lt; lia). f_equal.
    rewrite N.add_mod_idemp_l by lia. replace (k + (32 - s) + s) with (k + 1 * 32) by lia.
    rewrite N.mod_add, N.mod_small by lia. auto.
  - rewrite Brl by auto. apply Br. auto.
Qed.

(** ** cycle *)
Lemma cycle_spec x n : 1 <= n -> n <= 32 ->
  cycle x n < 2 ^ n /\
  forall k, k < n -> N.testbit (cycle x n) k = N.testbit x ((k + 1) mod n).
Proof.
  intros H1 H2. unfold cycle. rewrite (sub32_small n 1) by lia.
  rewrite mask_iter, lmask_iter by lia. replace (n - 1 + 1) with n by lia.
  set (m := N.land x (N.ones n)).
  assert (Hm : m < 2 ^ n).
  { unfold m. rewrite N.land_ones. apply N.mod_lt. apply N.pow_nonzero; discriminate. }
  assert (H32 : 2 ^ n <= 2 ^ 32) by (apply N.pow_le_mono_r; lia).
  assert (Hb : N.land 1 m = N.b2n (N.testbit m 0)).
  { rewrite N.land_comm. change 1 with (N.ones 1) at 1. rewrite N.land_ones.
    rewrite N.bit0_mod. reflexivity. }
  rewrite Hb.
  assert (Hp : 2 ^ (n - 1) < 2 ^ 32) by (apply N.pow_lt_mono_r; lia).
  assert (Hmul : mul32 (N.b2n (N.testbit m 0)) (2 ^ (n - 1))
                 = if N.testbit m 0 then 2 ^ (n - 1) else 0).
  { unfold mul32. destruct (N.testbit m 0); cbn [N.b2n]; rewrite w32_small; lia. }
  rewrite Hmul.
  assert (Hs : forall i, N.testbit (add32 (N.shiftr m 1) (if N.testbit m 0 then 2 ^ (n - 1) else 0)) i
     = N.testbit m (i + 1) || ((n - 1 =? i) && N.testbit m 0)).
  { intro i. rewrite add32_disjoint.
    - rewrite testbit_shiftr. f_equal. destruct (N.testbit m 0).
      + rewrite N.pow2_bits_eqb, andb_true_r. auto.
      + rewrite N.bits_0, andb_false_r. auto.
    - apply lt_pow2_testbit. intros j Hj. rewrite testbit_shiftr.
      apply (testbit_lt _ n); auto; lia.
    - destruct (N.testbit m 0); lia.
    - intro j. rewrite testbit_shiftr. destruct (N.testbit m 0).
      + rewrite N.pow2_bits_eqb. destruct (N.eqb_spec (n - 1) j).
        * subst j. rewrite (testbit_lt m n); auto; lia.
        * apply andb_false_r.
      + rewrite N.bits_0. apply andb_false_r. }
  split.
  - apply lt_pow2_testbit. intros i Hi. rewrite Hs.
    rewrite (testbit_lt m n) by (auto; lia). split_cmp; auto; lia.
  - intros k Hk. rewrite Hs. destruct (N.eqb_spec (n - 1) k).
    + subst k. replace (n - 1 + 1) with n by lia. rewrite N.mod_same by lia.
      rewrite (testbit_lt m n) by (auto; lia). cbn [orb andb].
      unfold m. rewrite N.land_spec, testbit_ones. split_cmp; try lia; rewrite ?andb_true_r; auto.
    + cbn [andb]. rewrite orb_false_r, N.mod_small by lia.
      unfold m. rewrite N.land_spec, testbit_ones. split_cmp; try lia; rewrite ?andb_true_r; auto.
Qed.

Lemma cycle_iter_spec x n j : 1 <= n -> n <= 32 -> x < 2 ^ n ->
  N.iter j (fun y => cycle y n) x < 2 ^ n /\
  forall k, k < n -> N.testbit (N.iter j (fun y => cycle y n) x) k = N.testbit x ((k + j) mod n).
Proof.
  intros H1 H2 Hx. induction j as [|j IH] using N.peano_ind.
  - simpl. split; auto. intros. rewrite N.add_0_r, N.mod_small; auto.
  - rewrite N.iter_succ. destruct IH as [IHa IHb].
    destruct (cycle_spec (N.iter j (fun y => cycle y n) x) n) as [Ha Hb]; auto.
    split; auto. intros k Hk. rewrite Hb by auto.
    rewrite IHb by (apply N.mod_lt; lia). f_equal.
    rewrite N.add_mod_idemp_l by lia. f_equal. lia.
Qed.

Lemma cycle_n_id x n : 1 <= n -> n <= 32 -> x < 2 ^ n ->
  N.iter n (fun y => cycle y n) x = x.
Proof.
  intros H1 H2 Hx. destruct (cycle_iter_spec x n n) as [Ha Hb]; auto.
  apply N.bits_inj. intro i. destruct (N.ltb_spec i n).
  - rewrite Hb by auto. f_equal. rewrite <- (N.mul_1_l n) at 1.
    rewrite N.mod_add, N.mod_small; lia.
  - rewrite !(testbit_lt _ n) by auto. auto.
Qed.
