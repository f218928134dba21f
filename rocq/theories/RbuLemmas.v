(** Proofs about get_rand_bits_uint. *)
From Verif Require Export BitsLemmas StreamModel StreamSpec.
Open Scope N_scope.

Section Rbu.
  Variable g : N -> N.
  Variable w : N.
  Hypothesis Hw1 : 1 <= w.
  Hypothesis Hw2 : w <= 32.
  Hypothesis Hg : forall i, g i < 2 ^ w.
  Let sb := stream_msb g w.

  Lemma sb_word pos j : j < w -> sb (w * pos + j) = N.testbit (g pos) (w - 1 - j).
  Proof.
    intros Hj. unfold sb, stream_msb.
    replace ((w * pos + j) / w) with pos by (apply (N.div_unique _ _ _ j); lia).
    replace ((w * pos + j) mod w) with j by (apply (N.mod_unique _ _ pos); lia).
    reflexivity.
  Qed.

  Lemma g_high i k : w <= k -> N.testbit (g i) k = false.
  Proof. intros. apply (testbit_lt _ w); auto. Qed.

  (** Consumed [P] bits. *)
  Definition rinv (P : N) (s : rstate) : Prop :=
    bits_left s < w /\ w * rpos s = P + bits_left s /\
    (0 < bits_left s -> bit_buffer s = g (rpos s - 1)).

  Lemma refill_spec n : n <= 32 -> forall fuel m bits pos P,
    1 <= m -> m <= n -> w * pos + m = P + n ->
    (N.to_nat m < fuel)%nat ->
    (forall k, k < m -> N.testbit bits k = false) ->
    (forall k, m <= k -> k < n -> N.testbit bits k = sb (P + n - 1 - k)) ->
    exists s', refill g w fuel m bits (N.ones n) pos
                 = Ok (window_value sb P (N.to_nat n), s') /\ rinv (P + n) s'.
  Proof.
    intros Hn. induction fuel as [|fuel IH]; intros m bits pos P Hm1 Hm2 HP Hf Hlo Hhi; [lia|].
    cbn [refill]. destruct (N.leb_spec m w) as [H|H].
    - rewrite shr32_ok by lia. cbn [bind]. eexists. split.
      + do 2 f_equal. apply N.bits_inj. intro k.
        rewrite N.land_spec, N.lor_spec, testbit_ones, testbit_shiftr.
        unfold window_value. rewrite testbit_number_of_bits, N2Nat.id.
        destruct (N.ltb_spec k n) as [Hk|Hk]; [|apply andb_false_r].
        rewrite andb_true_r. cbn [andb]. destruct (N.lt_ge_cases k m) as [Hkm|Hkm].
        * rewrite Hlo by auto. cbn [orb].
          replace (P + n - 1 - k) with (w * pos + (m - 1 - k)) by lia.
          rewrite sb_word by lia. f_equal. lia.
        * rewrite Hhi by auto. rewrite g_high by lia. apply orb_false_r.
      + unfold rinv. cbn [bits_left rpos bit_buffer]. repeat split; try lia.
        intros _. f_equal. lia.
    - rewrite shl32_ok by lia. cbn [bind].
      apply IH; try lia.
      + intros k Hk. rewrite N.lor_spec, testbit_w32, testbit_shiftl.
        rewrite Hlo by lia. replace (m - w <=? k) with false by lia.
        apply andb_false_r.
      + intros k Hk1 Hk2. rewrite N.lor_spec, testbit_w32, testbit_shiftl.
        replace (k <? 32) with true by lia. replace (m - w <=? k) with true by lia.
        cbn [andb]. destruct (N.lt_ge_cases k m) as [Hkm|Hkm].
        * rewrite Hlo by auto. cbn [orb].
          replace (P + n - 1 - k) with (w * pos + (m - 1 - k)) by lia.
          rewrite sb_word by lia. f_equal. lia.
        * rewrite Hhi by auto. rewrite g_high by lia. apply orb_false_r.
  Qed.

  Lemma mask_value n : n <= 32 ->
    (if n =? 32 then 0xFFFFFFFF else N.ones n) = N.ones n.
  Proof. intros. destruct (N.eqb_spec n 32); subst; auto. Qed.

  Lemma mask_from_zero n : n < 32 -> sub32 (w32 (N.shiftl 1 n)) 1 = N.ones n.
  Proof.
    intros Hn. rewrite N.shiftl_1_l.
    assert (2 ^ n < 2 ^ 32) by (apply N.pow_lt_mono_r; lia).
    assert (2 ^ n <> 0) by (apply N.pow_nonzero; discriminate).
    rewrite w32_small by auto. rewrite sub32_small by lia.
    rewrite N.ones_equiv. lia.
  Qed.

  Lemma get_rand_bits_uint_step P n s :
    n <= 32 -> n <> w -> rinv P s ->
    exists s', get_rand_bits_uint g w n (N.ones n) s
                 = Ok (window_value sb P (N.to_nat n), s') /\ rinv (P + n) s'.
  Proof.
    intros Hn Hnw (HL & HP & Hbuf). unfold get_rand_bits_uint.
    assert (Hmask : (if N.ones n =? 0 then do b <- shl32 1 n ;; Ok (sub32 b 1) else Ok (N.ones n))
                    = Ok (N.ones n)).
    { destruct (N.eqb_spec (N.ones n) 0) as [E|E]; auto.
      assert (n = 0). { destruct (N.eq_dec n 0); auto. exfalso.
        assert (N.testbit (N.ones n) 0 = true) by (rewrite testbit_ones; lia).
        rewrite E in *. discriminate. }
      subst. reflexivity. }
    rewrite Hmask. cbn [bind]. rewrite mask_value by auto.
    destruct (N.ltb_spec 32 n); [lia|]. destruct (N.eqb_spec n w); [contradiction|].
    destruct (N.leb_spec n (bits_left s)) as [H1|H1].
    - rewrite shr32_ok by lia. cbn [bind]. eexists. split.
      + do 2 f_equal. apply N.bits_inj. intro k.
        rewrite N.land_spec, testbit_ones, testbit_shiftr.
        unfold window_value. rewrite testbit_number_of_bits, N2Nat.id.
        destruct (N.ltb_spec k n) as [Hk|Hk]; [|apply andb_false_r].
        rewrite andb_true_r. cbn [andb].
        assert (0 < rpos s) by nia.
        replace (P + n - 1 - k)
          with (w * (rpos s - 1) + (w - bits_left s + (n - 1 - k))) by nia.
        rewrite sb_word by lia. rewrite Hbuf by lia. f_equal. lia.
      + unfold rinv. cbn [bits_left rpos bit_buffer]. split; [lia|]. split; [lia|].
        intros ?. apply Hbuf. lia.
    - set (m := n - bits_left s). assert (Hm : 1 <= m <= n) by (unfold m; lia).
      set (bits := if m =? 32 then 0 else w32 (N.shiftl (bit_buffer s) m)).
      assert (Hb : (if m =? 32 then Ok 0 else shl32 (bit_buffer s) m) = Ok bits).
      { unfold bits. destruct (N.eqb_spec m 32); auto. apply shl32_ok. lia. }
      rewrite Hb. cbn [bind].
      apply refill_spec; try lia; unfold bits.
      + intros k Hk. destruct (N.eqb_spec m 32); [apply N.bits_0|].
        rewrite testbit_w32, testbit_shiftl. replace (m <=? k) with false by lia.
        apply andb_false_r.
      + intros k Hk1 Hk2. destruct (N.eqb_spec m 32); [lia|].
        rewrite testbit_w32, testbit_shiftl. replace (m <=? k) with true by lia.
        replace (k <? 32) with true by lia. cbn [andb].
        assert (0 < rpos s) by nia.
        replace (P + n - 1 - k)
          with (w * (rpos s - 1) + (w - bits_left s + (n - 1 - k))) by nia.
        rewrite sb_word by lia. rewrite Hbuf by lia. f_equal. lia.
  Qed.

  Lemma run_rbu_spec reqs : forall P s,
    (forall n, In n reqs -> n <= 32 /\ n <> w) -> rinv P s ->
    exists s', run_rbu g w reqs s
      = Ok (pieces (fun p n => window_value sb p (N.to_nat n)) P reqs, s').
  Proof.
    induction reqs as [|n reqs IH]; intros P s Hr Hs; cbn [run_rbu pieces].
    - eexists. reflexivity.
    - destruct (Hr n (or_introl eq_refl)) as [Hn1 Hn2].
      destruct (get_rand_bits_uint_step P n s Hn1 Hn2 Hs) as (s1 & E1 & H1).
      rewrite E1. cbn [bind].
      destruct (IH (P + n) s1 (fun n' H => Hr n' (or_intror H)) H1) as (s2 & E2).
      rewrite E2. eexists. reflexivity.
  Qed.

  Lemma rinv_init b : rinv 0 (mkR b 0 0).
  Proof. unfold rinv. cbn. repeat split; lia. Qed.
End Rbu.

Lemma window_value_lt bit p n : window_value bit p n < 2 ^ N.of_nat n.
Proof. apply number_of_bits_lt. Qed.

Lemma run_rbu_ok g w reqs b : 1 <= w -> w <= 32 -> (forall i, g i < 2 ^ w) ->
  (forall n, In n reqs -> n <= 32 /\ n <> w) ->
  exists s', run_rbu g w reqs (mkR b 0 0)
    = Ok (pieces (fun p n => window_value (stream_msb g w) p (N.to_nat n)) 0 reqs, s').
Proof.
  intros. apply run_rbu_spec; auto. apply rinv_init; auto.
Qed.
