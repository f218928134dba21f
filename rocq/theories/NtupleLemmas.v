(** Proofs about NtupleModel.v *)
From Verif Require Export BaseLemmas BitsLemmas WordSpec NtupleModel.
Open Scope N_scope.

(** What the loop has collected: the bits below len are right, those above
    do not matter as they are masked or overwritten by [lor] of zero bits. *)
Definition collected (w x off len r : N) : Prop :=
  r < 2 ^ 32 /\
  (forall k, k < len -> k < 32 -> N.testbit r k = N.testbit x ((off + k) mod w)) /\
  forall k, len <= k -> N.testbit r k = false.

Lemma mod_step : forall a w, 0 < w -> a < w -> a mod w = a.
Proof. intros. apply N.mod_small. assumption. Qed.

Lemma collected_start : forall w x off, 1 <= w -> w <= 32 -> x < 2 ^ w -> off < w ->
  collected w x off (w - off) (N.shiftr x off).
Proof.
  intros w x off H1 H2 Hx Ho.
  assert (X : x < 2 ^ 32) by (eapply N.lt_le_trans; [exact Hx|]; apply N.pow_le_mono_r; lia).
  split; [|split].
  - apply lt_pow2_testbit. intros i Hi. rewrite testbit_shiftr. apply (testbit_lt32 _ _ X). lia.
  - intros k Hk _. rewrite testbit_shiftr. rewrite (N.mod_small (off + k)) by lia. f_equal. lia.
  - intros k Hk. rewrite testbit_shiftr. apply (testbit_lt _ w); [exact Hx|lia].
Qed.

Lemma wrap_loop_ok : forall w x off n, 1 <= w -> w <= 32 -> x < 2 ^ w -> off < w -> n <= 32 ->
  forall fuel len r, (off + len) mod w = 0 -> n <= len + N.of_nat fuel ->
  collected w x off len r ->
  exists r', wrap_loop (S fuel) w x n len r = Ok r' /\
    forall k, k < n -> N.testbit r' k = N.testbit x ((off + k) mod w).
Proof.
  intros w x off n H1 H2 Hx Ho Hn. induction fuel as [|fuel IH]; intros len r A F C;
    remember (wrap_loop _ w x n len r) as v eqn:E; cbn [wrap_loop] in E; subst v.
  - replace (len <? n) with false by lia. exists r. split; [reflexivity|].
    intros k Hk. apply (proj1 (proj2 C)); lia.
  - destruct (N.ltb_spec len n) as [L|L].
    + rewrite shl32_ok by lia. cbn [bind].
      replace (add32 len w) with (len + w) by (unfold add32; rewrite w32_small; [reflexivity|change (2 ^ 32) with 4294967296; lia]).
      apply IH.
      * rewrite N.add_assoc, <- (N.mul_1_l w) at 1. rewrite N.mod_add by lia. exact A.
      * lia.
      * destruct C as (C1 & C2 & C3). split; [|split].
        -- apply lt_pow2_testbit. intros i Hi. rewrite N.lor_spec, testbit_w32.
           rewrite (testbit_lt32 r i C1 Hi). replace (i <? 32) with false by lia. reflexivity.
        -- intros k Hk Hk2. rewrite N.lor_spec, testbit_w32, testbit_shiftl.
           replace (k <? 32) with true by lia. cbn [andb].
           destruct (N.ltb_spec k len).
           ++ rewrite C2 by lia. replace (len <=? k) with false by lia. cbn [andb]. apply orb_false_r.
           ++ rewrite C3 by lia. replace (len <=? k) with true by lia. cbn [andb orb].
              f_equal. replace (off + k) with ((off + len) + (k - len)) by lia.
              rewrite N.add_mod, A, N.add_0_l, N.mod_mod by lia. rewrite N.mod_small by lia. reflexivity.
        -- intros k Hk. rewrite N.lor_spec, testbit_w32, testbit_shiftl. rewrite C3 by lia.
           rewrite (testbit_lt x w (k - len)) by (exact Hx || lia). rewrite !andb_false_r. reflexivity.
    + exists r. split; [reflexivity|]. intros k Hk. apply (proj1 (proj2 C)); lia.
Qed.

Lemma land_ones_bits : forall f r n, (forall k, k < N.of_nat n -> N.testbit r k = f k) ->
  N.land r (N.ones (N.of_nat n)) = number_of_bits f n.
Proof.
  intros f r n H. apply N.bits_inj. intro i. rewrite N.land_spec, testbit_ones, testbit_number_of_bits.
  destruct (N.ltb_spec i (N.of_nat n)); [|rewrite andb_false_r; reflexivity].
  rewrite H by assumption. rewrite andb_true_r. reflexivity.
Qed.

Lemma ntuple_from_uint_ok : forall w x n off, 1 <= w -> w <= 32 -> x < 2 ^ w -> (n <= 32)%nat ->
  get_bit_ntuple_from_uint w x (N.of_nat n) (N.ones (N.of_nat n)) off = Ok (around w x off n).
Proof.
  intros w x n off H1 H2 Hx Hn. unfold get_bit_ntuple_from_uint.
  replace (w =? 0) with false by lia. pose proof (N.mod_lt off w ltac:(lia)) as Ho.
  assert (R : around w x off n = around w x (off mod w) n).
  { apply number_of_bits_ext. intros k _. f_equal. rewrite N.add_mod_idemp_l by lia. reflexivity. }
  rewrite R. clear R. revert Ho. generalize (off mod w) as o. intros o Ho.
  rewrite shr32_ok by lia. cbn [bind].
  replace (add32 o (N.of_nat n)) with (o + N.of_nat n)
    by (unfold add32; rewrite w32_small; [reflexivity|change (2 ^ 32) with 4294967296; lia]).
  destruct (N.leb_spec (o + N.of_nat n) w) as [L|L].
  - f_equal. apply land_ones_bits. intros k Hk. rewrite testbit_shiftr, N.mod_small by lia. f_equal. lia.
  - rewrite sub32_small by (lia || (change (2 ^ 32) with 4294967296; lia)).
    destruct (wrap_loop_ok w x o (N.of_nat n) H1 H2 Hx Ho ltac:(lia) 32 (w - o) (N.shiftr x o)) as (r & E & B).
    + replace (o + (w - o)) with w by lia. apply N.mod_same. lia.
    + lia.
    + apply collected_start; assumption.
    + rewrite E. cbn [bind]. f_equal. apply land_ones_bits. exact B.
Qed.

Lemma ntuple_from_whole_uint_ok : forall x n off, x < 2 ^ 32 -> (n <= 32)%nat -> off < 32 ->
  get_bit_ntuple_from_whole_uint x (N.of_nat n) (N.ones (N.of_nat n)) off = Ok (around 32 x off n).
Proof.
  intros x n off Hx Hn Ho. rewrite <- (ntuple_from_uint_ok 32 x n off) by (lia || assumption).
  unfold get_bit_ntuple_from_uint, get_bit_ntuple_from_whole_uint. cbn [N.eqb].
  rewrite (N.mod_small off 32) by exact Ho. reflexivity.
Qed.
Lemma around_lt : forall w x off n, around w x off n < 2 ^ N.of_nat n.
Proof. intros. apply number_of_bits_lt. Qed.
