(** Proofs about get_uint_rand. *)
From Verif Require Export BitsLemmas StreamModel StreamSpec.
Open Scope N_scope.

Lemma g32 (g : N -> N) w i : w <= 32 -> (forall i, g i < 2 ^ w) -> g i < 2 ^ 32.
Proof.
  intros Hw Hg. eapply N.lt_le_trans; [apply Hg|]. apply N.pow_le_mono_r; lia.
Qed.
Lemma add32_assoc_mod a b c : w32 (w32 (a + b) + c) = w32 (a + (b + c)).
Proof.
  unfold w32. rewrite N.add_mod_idemp_l by discriminate. f_equal. lia.
Qed.

Section Uint.
  Variable g : N -> N.
  Variable w : N.
  Hypothesis Hw1 : 1 <= w.
  Hypothesis Hw2 : w <= 32.
  Hypothesis Hg : forall i, g i < 2 ^ w.
  Variable p0 : N.
  Let gs i := g (p0 + i).
  Let lb := stream_lsb gs w.

  Lemma lb_word pos j : j < w -> lb (w * pos + j) = N.testbit (g (p0 + pos)) j.
  Proof.
    intros Hj. unfold lb, stream_lsb, gs.
    replace ((w * pos + j) / w) with pos by (apply (N.div_unique _ _ _ j); lia).
    replace ((w * pos + j) mod w) with j by (apply (N.mod_unique _ _ pos); lia).
    reflexivity.
  Qed.
  Lemma g_bit_high i k : w <= k -> N.testbit (g i) k = false.
  Proof. intros. apply (testbit_lt _ w); auto. Qed.

  (** one more generator word *)
  Lemma lsb_value_extend p lo pos m : p + lo = w * pos -> lo <= m -> m <= lo + w ->
    lsb_value lb p (N.to_nat m)
      = lsb_value lb p (N.to_nat lo) + (g (p0 + pos) * 2 ^ lo) mod 2 ^ m.
  Proof.
    intros Hp Hm1 Hm2. rewrite <- N.shiftl_mul_pow2.
    apply N.bits_inj. intro k. unfold lsb_value.
    assert (D : forall i, N.testbit (number_of_bits (fun k => lb (p + k)) (N.to_nat lo)) i
               && N.testbit (N.shiftl (g (p0 + pos)) lo mod 2 ^ m) i = false).
    { intro i. rewrite testbit_number_of_bits, N2Nat.id, testbit_mod, testbit_shiftl.
      destruct (N.ltb_spec i lo); cbn [andb]; auto.
      replace (lo <=? i) with false by lia. rewrite !andb_false_r. auto. }
    rewrite testbit_add_disjoint by exact D.
    rewrite !testbit_number_of_bits, !N2Nat.id, testbit_mod, testbit_shiftl.
    destruct (N.ltb_spec k lo).
    - replace (k <? m) with true by lia. replace (lo <=? k) with false by lia.
      cbn [andb]. rewrite orb_false_r. auto.
    - replace (lo <=? k) with true by lia. cbn [andb orb].
      destruct (N.ltb_spec k m); cbn [andb]; auto.
      replace (p + k) with (w * pos + (k - lo)) by lia. rewrite lb_word by lia. auto.
  Qed.

  (** Right-hand part of a word: the bits from [b] on. *)
  Lemma lsb_value_tail pos b : b <= w ->
    lsb_value lb (w * pos + b) (N.to_nat (w - b)) = N.shiftr (g (p0 + pos)) b.
  Proof.
    intros Hb. apply N.bits_inj. intro k. unfold lsb_value.
    rewrite testbit_number_of_bits, N2Nat.id, testbit_shiftr.
    destruct (N.ltb_spec k (w - b)); cbn [andb].
    - rewrite <- N.add_assoc, lb_word by lia. f_equal. lia.
    - symmetry. apply g_bit_high. lia.
  Qed.


  (** State inside a call: [lo] bits of result number [j] are assembled. *)
  Definition mid (base : N) (j lo : N) (s : ustate) : Prop :=
    exists pos, gpos s = p0 + pos /\ 32 * j + lo = w * pos /\
      bleft s = (32 - Z.of_N lo)%Z /\
      bits_rand1 s = w32 (base + lsb_value lb (32 * j) (N.to_nat lo)).

  Lemma uint_fill_spec base j : forall fuel lo s,
    mid base j lo s -> lo < 32 -> (N.to_nat (32 - lo) < fuel)%nat ->
    exists lo' s', uint_fill g w fuel s = Ok s' /\ mid base j lo' s' /\
      lo' < 32 /\ 32 - lo' <= w /\ lo <= lo'.
  Proof.
    induction fuel as [|fuel IH]; intros lo s (pos & Hpos & Hpj & Hbl & Hr1) Hlo Hf; [lia|].
    cbn [uint_fill]. rewrite Hbl, u32_of_Z_small by lia.
    destruct (N.ltb_spec w (Z.to_N (32 - Z.of_N lo))) as [H|H].
    - rewrite sub32_small by lia. rewrite u32_of_Z_small by lia.
      rewrite b_window_ok by lia. cbn [bind].
      edestruct (IH (lo + w)) as (lo' & s' & E & M & H1 & H2 & H3);
        [| | |exists lo', s'; split; [exact E|split; [exact M|lia]]]; try lia.
      exists (pos + 1). cbn [gpos bleft bits_rand1]. split; [lia|].
      split; [lia|]. split; [lia|].
      rewrite Hr1. unfold add32. rewrite add32_assoc_mod. do 2 f_equal.
      rewrite (lsb_value_extend (32 * j) lo pos (lo + w)) by lia. f_equal.
      rewrite <- N.shiftl_mul_pow2. apply N.bits_inj. intro k.
      rewrite testbit_window by (try apply (g32 g w); auto; lia).
      rewrite testbit_mod, testbit_shiftl, Hpos.
      destruct (N.leb_spec lo k) as [Hk|Hk].
      + replace (k + Z.to_N (32 - Z.of_N lo - Z.of_N w) - (32 - w)) with (k - lo) by lia.
        destruct (N.ltb_spec k (lo + w)).
        * replace (k <=? 31 - Z.to_N (32 - Z.of_N lo - Z.of_N w)) with true by lia.
          replace (31 + (32 - w) <=? k + Z.to_N (32 - Z.of_N lo - Z.of_N w) + 31) with true by lia.
          auto.
        * rewrite g_bit_high by lia. rewrite !andb_false_r. auto.
      + replace (31 + (32 - w) <=? k + Z.to_N (32 - Z.of_N lo - Z.of_N w) + 31) with false by lia.
        rewrite !andb_false_r. auto.
    - exists lo, s. split; auto. split; [|lia]. exists pos. auto.
  Qed.
End Uint.

Section Narrow.
  Variable g : N -> N.
  Variable w : N.
  Hypothesis Hw1 : 1 <= w.
  Hypothesis Hw2 : w < 32.
  Hypothesis Hg : forall i, g i < 2 ^ w.
  Variable p0 : N.
  Let gs i := g (p0 + i).
  Let lb := stream_lsb gs w.
  Let u := uint_rand_word gs w.

  (** State between calls, after [j] calls. *)
  Definition narrow_inv (j : nat) (s : ustate) : Prop :=
    match j with
    | O => bleft s = (-1)%Z /\ gpos s = p0
    | S i => exists lo, lo < w /\
        mid g w p0 (if lo =? 0 then u i else 0) (N.of_nat j) lo s
    end.

  Lemma u_lt j : u j < 2 ^ 32.
  Proof.
    unfold u. destruct j; cbn [uint_rand_word].
    - apply (number_of_bits_lt _ 32).
    - destruct (_ =? 0); [apply N.mod_lt; discriminate|apply (number_of_bits_lt _ 32)].
  Qed.

  Lemma u_base (j : nat) lo pos : 32 * N.of_nat j + lo = w * pos -> lo < w \/ j = 0%nat ->
    w32 ((match j with O => 0 | S i => if lo =? 0 then u i else 0 end)
         + lsb_value lb (32 * N.of_nat j) 32) = u j.
  Proof.
    intros Hp Hlo. assert (Hs : lsb_value lb (32 * N.of_nat j) 32 < 2 ^ 32)
      by apply (number_of_bits_lt _ 32).
    destruct j as [|i].
    - unfold u, uint_rand_word. rewrite N.add_0_l. apply w32_small. exact Hs.
    - destruct Hlo as [Hlo|]; [|discriminate].
      change (u (S i)) with (if (32 * N.of_nat (S i)) mod w =? 0
        then (u i + lsb_value lb (32 * N.of_nat (S i)) 32) mod 2 ^ 32
        else lsb_value lb (32 * N.of_nat (S i)) 32).
      assert (Hmod : (32 * N.of_nat (S i)) mod w = (if lo =? 0 then 0 else w - lo)).
      { destruct (N.eqb_spec lo 0); symmetry;
          [apply (N.mod_unique _ _ pos)|apply (N.mod_unique _ _ (pos - 1))]; nia. }
      rewrite Hmod. destruct (N.eqb_spec lo 0).
      + reflexivity.
      + replace (w - lo =? 0) with false by lia. rewrite N.add_0_l. apply w32_small. exact Hs.
  Qed.

  Let Hw32 : w <= 32.
  Proof. lia. Qed.

  Lemma narrow_step j s : narrow_inv j s ->
    exists s', get_uint_rand g w s = Ok (u j, s') /\ narrow_inv (S j) s'.
  Proof.
    intros Hinv. unfold get_uint_rand.
    set (s0 := if (bleft s =? -1)%Z then _ else s).
    set (lo0 := fun lo : N => match j with O => 0 | S i => if lo =? 0 then u i else 0 end).
    assert (H0 : exists lo pos, 32 * N.of_nat j + lo = w * pos /\ (lo < w \/ j = 0%nat) /\ lo <= w /\
                 mid g w p0 (lo0 lo) (N.of_nat j) lo s0).
    { destruct j as [|i].
      - destruct Hinv as [Hb Hp]. exists w, 1. split; [lia|]. split; [auto|]. split; [lia|].
        unfold s0. rewrite Hb. cbn [Z.eqb Pos.eqb]. exists 1. cbn [gpos bleft bits_rand1].
        split; [lia|]. split; [lia|]. split; [reflexivity|].
        unfold lo0. rewrite N.add_0_l.
        assert (E := lsb_value_tail g w Hw1 Hw32 Hg p0 0 0 ltac:(lia)).
        rewrite N.mul_0_r, N.add_0_l, N.sub_0_r, N.shiftr_0_r, N.add_0_r in E.
        change (32 * N.of_nat 0) with 0. rewrite E, Hp. symmetry. apply w32_small.
        apply (g32 g w); auto; lia.
      - destruct Hinv as (lo & Hlo & Hm). pose proof Hm as (pos & Hpos & Hpj & Hbl & Hr1).
        exists lo, pos. split; [auto|]. split; [auto|]. split; [lia|].
        unfold s0. replace (bleft s =? -1)%Z with false by lia. exact Hm. }
    destruct H0 as (lo & pos & Hpj & Hlo & Hlow & Hm).
    destruct (uint_fill_spec g w Hw1 ltac:(lia) Hg p0 (lo0 lo) (N.of_nat j) 33 lo s0 Hm
                ltac:(lia) ltac:(lia)) as (lo' & s1 & E1 & (pos1 & Hpos1 & Hpj1 & Hbl1 & Hr11) & Hlo'1 & Hlo'2 & _).
    rewrite E1. cbn [bind]. rewrite Hbl1.
    replace (32 - Z.of_N lo' =? 0)%Z with false by lia. cbn [negb].
    replace (32 - (32 - Z.of_N lo'))%Z with (Z.of_N lo') by lia.
    rewrite u32_of_Z_small by lia. rewrite N2Z.id.
    rewrite b_window_ok by lia. cbn [bind].
    assert (Ev : window_val (g (gpos s1)) lo' 31 0 = (g (p0 + pos1) * 2 ^ lo') mod 2 ^ 32).
    { rewrite <- N.shiftl_mul_pow2. apply N.bits_inj. intro k.
      rewrite testbit_window by (try apply (g32 g w); auto; lia).
      rewrite testbit_mod, testbit_shiftl, Hpos1.
      destruct (N.leb_spec lo' k).
      - replace (k + 0 - lo') with (k - lo') by lia.
        replace (31 + lo' <=? k + 0 + 31) with true by lia.
        replace (k <=? 31 - 0) with (k <? 32) by lia.
        cbn [andb]. rewrite andb_true_r. auto.
      - replace (31 + lo' <=? k + 0 + 31) with false by lia. rewrite !andb_false_r. auto. }
    assert (Er : add32 (bits_rand1 s1) (window_val (g (gpos s1)) lo' 31 0) = u j).
    { rewrite Ev, Hr11. unfold add32. rewrite (add32_assoc_mod).
      rewrite <- (lsb_value_extend g w Hw1 Hw32 Hg p0 (32 * N.of_nat j) lo' pos1 32) by lia.
      change (N.to_nat 32) with 32%nat. unfold lo0. apply (u_base j lo pos); auto. }
    rewrite Er. rewrite u32_of_Z_small by lia.
    assert (Hju : 32 * N.of_nat (S j) = 32 * N.of_nat j + 32) by lia.
    destruct (N.eqb_spec (Z.to_N (32 - Z.of_N lo')) w) as [Hw|Hw].
    - eexists. split; [reflexivity|]. exists 0. split; [lia|].
      exists (pos1 + 1). cbn [gpos bleft bits_rand1]. split; [lia|]. split; [lia|]. split; [reflexivity|].
      cbn [N.eqb]. change (lsb_value _ _ (N.to_nat 0)) with 0. rewrite N.add_0_r.
      symmetry. apply w32_small. apply u_lt.
    - rewrite sub32_small by lia. rewrite !u32_of_Z_small by lia.
      rewrite b_window_ok by lia. cbn [bind].
      eexists. split; [reflexivity|]. exists (w - (32 - lo')). split; [lia|].
      exists (pos1 + 1). cbn [gpos bleft bits_rand1]. split; [lia|]. split; [lia|]. split; [lia|].
      replace (w - (32 - lo') =? 0) with false by lia. rewrite N.add_0_l.
      rewrite Hju. replace (32 * N.of_nat j + 32) with (w * pos1 + (32 - lo')) by lia.
      rewrite (lsb_value_tail g w Hw1 Hw32 Hg p0) by lia.
      assert (Ew : window_val (g (gpos s1)) (32 - w) (Z.to_N (Z.of_N lo' - 1))
                     (Z.to_N (32 - Z.of_N w + (32 - Z.of_N lo'))) = N.shiftr (g (p0 + pos1)) (32 - lo')).
      { apply N.bits_inj. intro k.
        rewrite testbit_window by (try apply (g32 g w); auto; lia).
        rewrite testbit_shiftr, Hpos1.
        replace (k + Z.to_N (32 - Z.of_N w + (32 - Z.of_N lo')) - (32 - w)) with (k + (32 - lo')) by lia.
        replace (31 + (32 - w) <=? k + Z.to_N (32 - Z.of_N w + (32 - Z.of_N lo')) + Z.to_N (Z.of_N lo' - 1))
          with true by lia. rewrite andb_true_r.
        destruct (N.leb_spec k (31 - Z.to_N (32 - Z.of_N w + (32 - Z.of_N lo')))); auto.
        cbn [andb]. symmetry. apply (g_bit_high g w); auto. lia. }
      rewrite Ew. symmetry. apply w32_small.
      rewrite <- Ew. apply window_lt; try (apply (g32 g w); auto); lia.
  Qed.
End Narrow.

Lemma uint_fill_stop g w fuel s : (w <? u32_of_Z (bleft s)) = false ->
  uint_fill g w (S fuel) s = Ok s.
Proof. intros H. cbn [uint_fill]. rewrite H. reflexivity. Qed.

(** 32-bit generators: the first call draws two words, then one per call. *)
Section Wide.
  Variable g : N -> N.
  Hypothesis Hg : forall i, g i < 2 ^ 32.
  Variable p0 : N.
  Definition wide_inv (j : nat) (s : ustate) : Prop :=
    match j with
    | O => bleft s = (-1)%Z /\ gpos s = p0
    | S i => bleft s = 0%Z /\ gpos s = p0 + N.of_nat j + 1 /\ bits_rand1 s = g (p0 + N.of_nat j)
    end.
  Lemma wide_step j s : wide_inv j s ->
    exists s', get_uint_rand g 32 s = Ok (g (p0 + N.of_nat j), s') /\ wide_inv (S j) s'.
  Proof.
    intros Hinv. unfold get_uint_rand.
    set (s0 := if (bleft s =? -1)%Z then _ else s).
    assert (H : bleft s0 = 0%Z /\ gpos s0 = p0 + N.of_nat j + 1 /\ bits_rand1 s0 = g (p0 + N.of_nat j)).
    { unfold s0. destruct j as [|i]; cbn [wide_inv] in Hinv.
      - destruct Hinv as [-> ->]. cbn. repeat split; try f_equal; lia.
      - destruct Hinv as (A1 & A2 & A3). rewrite A1. cbn [Z.eqb]. auto. }
    destruct H as (H1 & H2 & H3).
    rewrite uint_fill_stop by (rewrite H1; reflexivity). cbn [bind]. rewrite H1.
    cbn [Z.eqb negb bind]. change (u32_of_Z 0) with 0. change (0 =? 32) with false. cbv iota.
    rewrite b_window_ok by (vm_compute; congruence). cbn [bind].
    rewrite H3. eexists. split; [reflexivity|].
    cbn [wide_inv bleft gpos bits_rand1]. split; [reflexivity|]. split; [lia|].
    rewrite H2. replace (p0 + N.of_nat (S j)) with (p0 + N.of_nat j + 1) by lia.
    apply N.bits_inj. intro k. rewrite testbit_window by (try apply Hg; vm_compute; congruence).
    change (sub32 32 32) with 0. change (u32_of_Z (32 - 0 - 1)) with 31.
    change (u32_of_Z (32 - Z.of_N 32 + 0)) with 0.
    destruct (N.leb_spec k (31 - 0)).
    - replace (31 + 0 <=? k + 0 + 31) with true by lia. cbn [andb]. f_equal. lia.
    - cbn [andb]. symmetry. apply testbit_lt32; auto. lia.
  Qed.
End Wide.

Lemma run_uint_steps g w (u : nat -> N) (inv : nat -> ustate -> Prop) :
  (forall j s, inv j s -> exists s', get_uint_rand g w s = Ok (u j, s') /\ inv (S j) s') ->
  forall n j s, inv j s ->
  exists s', run_uint g w n s = Ok (map u (seq j n), s') /\ inv (j + n)%nat s'.
Proof.
  intros Hstep. induction n as [|n IH]; intros j s Hs; cbn [run_uint seq map].
  - exists s. rewrite Nat.add_0_r. auto.
  - destruct (Hstep j s Hs) as (s1 & E1 & H1). rewrite E1. cbn [bind].
    destruct (IH (S j) s1 H1) as (s2 & E2 & H2). rewrite E2. cbn [bind].
    exists s2. split; auto. replace (j + S n)%nat with (S j + n)%nat by lia. auto.
Qed.
