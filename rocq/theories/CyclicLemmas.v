(** Proofs about get_ntuple_cyclic. *)
From Verif Require Export BitsLemmas CyclicModel.
Open Scope Z_scope.

Lemma u32_of_Z_31 z : 0 <= z <= 31 -> u32_of_Z z = Z.to_N z.
Proof. intros. apply u32_of_Z_small. lia. Qed.

Lemma testbit_big_endian ws q : (forall w, In w ws -> (w < 2 ^ 32)%N) ->
  N.testbit (big_endian_value ws) q
    = (q / 32 <? N.of_nat (length ws))%N
      && N.testbit (nth (length ws - 1 - N.to_nat (q / 32)) ws 0%N) (q mod 32).
Proof.
  revert q. induction ws as [|w ws IH] using rev_ind; intros q Hw.
  - cbn [big_endian_value fold_left length]. rewrite N.bits_0.
    destruct (N.ltb_spec (q / 32) (N.of_nat 0)); [lia|reflexivity].
  - unfold big_endian_value. rewrite fold_left_app. cbn [fold_left].
    fold (big_endian_value ws).
    assert (Hw' : (w < 2 ^ 32)%N) by (apply Hw, in_or_app; right; left; auto).
    rewrite <- N.shiftl_mul_pow2. rewrite testbit_add_disjoint.
    2:{ intro j. rewrite testbit_shiftl. destruct (N.leb_spec 32 j); auto.
        rewrite (testbit_lt32 w) by auto. apply andb_false_r. }
    rewrite testbit_shiftl, app_length. cbn [length].
    assert (Hdm := N.div_mod q 32). assert (Hml := N.mod_lt q 32).
    destruct (N.leb_spec 32 q) as [H|H]; cbn [andb].
    + rewrite (testbit_lt32 w) by auto. rewrite orb_false_r, IH
        by (intros; apply Hw, in_or_app; auto).
      assert (Ed : ((q - 32) / 32 = q / 32 - 1)%N).
      { symmetry. apply (N.div_unique _ _ _ (q mod 32)); lia. }
      assert (Em : ((q - 32) mod 32 = q mod 32)%N).
      { symmetry. apply (N.mod_unique _ _ (q / 32 - 1)); lia. }
      rewrite Ed, Em. clear Ed Em.
      destruct (N.ltb_spec (q / 32 - 1) (N.of_nat (length ws))).
      * replace (q / 32 <? N.of_nat (length ws + 1))%N with true by lia. cbn [andb].
        rewrite app_nth1 by lia. f_equal. f_equal. lia.
      * replace (q / 32 <? N.of_nat (length ws + 1))%N with false by lia. reflexivity.
    + assert (E0 : (q / 32 = 0)%N) by (apply N.div_small; auto).
      rewrite E0. replace (0 <? N.of_nat (length ws + 1))%N with true by lia.
      cbn [andb]. rewrite app_nth2 by lia.
      replace (length ws + 1 - 1 - N.to_nat 0 - length ws)%nat with 0%nat by lia.
      cbn [nth orb]. rewrite N.mod_small; auto.
Qed.

Section Cyclic.
  Variable input : list N.
  Hypothesis Hlen : (1 <= length input)%nat.
  Hypothesis Hlen2 : (N.of_nat (length input) < 2 ^ 31)%N.
  Hypothesis Hw : forall w, In w input -> (w < 2 ^ 32)%N.
  Let L := N.of_nat (length input).
  Let C := cyclic_msb_bit input.

  Lemma nthw_lt n : (n < length input)%nat -> (nth n input 0 < 2 ^ 32)%N.
  Proof. intros. apply Hw. apply nth_In. auto. Qed.

  Lemma C_word a c : (c < 32)%N ->
    C (32 * a + c)%N = msb (nth (N.to_nat (a mod L)) input 0%N) c.
  Proof.
    intros Hc. unfold C, cyclic_msb_bit. fold L.
    assert (HL : (0 < L)%N) by (unfold L; lia).
    rewrite (N.mod_mul_r (32 * a + c) 32 L) by lia.
    assert (E1 : ((32 * a + c) mod 32 = c)%N).
    { rewrite N.add_comm, N.mul_comm, N.mod_add by lia. apply N.mod_small; auto. }
    assert (E2 : ((32 * a + c) / 32 = a)%N).
    { rewrite N.add_comm, N.mul_comm, N.div_add by lia. rewrite N.div_small; lia. }
    rewrite E1, E2.
    assert (E3 : ((c + 32 * (a mod L)) / 32 = a mod L)%N).
    { rewrite N.mul_comm, N.div_add by lia. rewrite N.div_small; lia. }
    assert (E4 : ((c + 32 * (a mod L)) mod 32 = c)%N).
    { rewrite N.mul_comm, N.mod_add by lia. apply N.mod_small; auto. }
    rewrite E3, E4. auto.
  Qed.

  (** the window of word [a mod L], as a number described bitwise *)
  Lemma win_ok a x y z i :
    i = Z.of_N (a mod L) -> 0 <= x -> x <= y -> y <= 31 -> 0 <= z <= 31 ->
    exists v, win input i x y z = Ok v /\ (v < 2 ^ 32)%N /\
      forall k, (k < 32)%N -> N.testbit v k =
        ((Z.of_N k <=? 31 - z) && (31 + x - y - z <=? Z.of_N k)
          && C (32 * a + Z.to_N (31 - (Z.of_N k + z - x)))%N)%Z.
  Proof.
    intros -> Hx Hxy Hy Hz.
    assert (HL : (0 < L)%N) by (unfold L; lia).
    assert (Hm : (a mod L < L)%N) by (apply N.mod_lt; lia).
    unfold win. rewrite (aget_ok _ _ 0%N) by (unfold L in *; lia). cbn [bind].
    rewrite !u32_of_Z_31 by lia.
    assert (Hv : (nth (N.to_nat (a mod L)) input 0 < 2 ^ 32)%N)
      by (apply nthw_lt; unfold L in *; lia).
    replace (Z.to_nat (Z.of_N (a mod L))) with (N.to_nat (a mod L)) by lia.
    rewrite b_window_ok by lia. eexists. split; [reflexivity|]. split.
    { apply window_lt; auto; lia. }
    intros k Hk. rewrite testbit_window by (auto; lia).
    destruct ((Z.of_N k <=? 31 - z) && (31 + x - y - z <=? Z.of_N k)) eqn:B.
    - assert (0 <= 31 - (Z.of_N k + z - x) < 32) by lia.
      rewrite C_word by lia. unfold msb.
      replace (31 - Z.to_N (31 - (Z.of_N k + z - x)))%N with (k + Z.to_N z - Z.to_N x)%N by lia.
      replace (k <=? 31 - Z.to_N z)%N with true by lia.
      replace (31 + Z.to_N x <=? k + Z.to_N z + Z.to_N y)%N with true by lia.
      reflexivity.
    - cbn [andb].
      replace ((k <=? 31 - Z.to_N z)%N && (31 + Z.to_N x <=? k + Z.to_N z + Z.to_N y)%N)
        with false by lia.
      reflexivity.
  Qed.

  Variables (offset n : N) (jlen : nat).
  Hypothesis Hn : (1 <= n)%N.
  Hypothesis Hj : (n <= 32 * N.of_nat jlen)%N.
  Hypothesis Hov : (offset + n < 2 ^ 32)%N.
  Hypothesis Hjl : (N.of_nat jlen < 2 ^ 31)%N.
  Let E := (offset + n)%N.

  (** word [r] of the result counted from the least significant end *)
  Definition W (r : N) : N :=
    number_of_bits (fun k => (32 * r + k <? n)%N && C (E - 1 - (32 * r + k))%N) 32.

  (** output array after [t] complete words *)
  Definition partial_out (out : list N) (t : N) : Prop :=
    length out = jlen /\
    forall r, (r < N.of_nat jlen)%N ->
      nth (jlen - 1 - N.to_nat r) out 0%N = if (r <? t)%N then W r else 0%N.

  Definition final_out : list N :=
    map (fun j => W (N.of_nat (jlen - 1 - j))) (seq 0 jlen).

  Lemma partial_out_final out t :
    (n <= 32 * t)%N -> partial_out out t -> out = final_out.
  Proof.
    intros Ht [Hl Ho]. apply (nth_ext _ _ 0%N 0%N).
    - unfold final_out. rewrite map_length, seq_length. auto.
    - intros m Hm. rewrite Hl in Hm. unfold final_out.
      rewrite (nth_indep (map _ _) 0%N ((fun j => W (N.of_nat (jlen - 1 - j))) 0%nat))
        by (rewrite map_length, seq_length; auto).
      rewrite (map_nth (fun j => W (N.of_nat (jlen - 1 - j)))).
      rewrite seq_nth by auto. simpl.
      specialize (Ho (N.of_nat (jlen - 1 - m))).
      replace (jlen - 1 - N.to_nat (N.of_nat (jlen - 1 - m)))%nat with m in Ho by lia.
      rewrite Ho by lia. destruct (N.ltb_spec (N.of_nat (jlen - 1 - m)) t); auto.
      symmetry. apply N.bits_inj. intro k. unfold W. rewrite testbit_number_of_bits, N.bits_0.
      destruct (N.ltb_spec (32 * N.of_nat (jlen - 1 - m) + k) n); [lia|].
      apply andb_false_r.
  Qed.

  (** storing a finished word *)
  Lemma partial_out_step out t v :
    partial_out out t -> (t < N.of_nat jlen)%N -> v = W t ->
    partial_out (set_nth out (jlen - 1 - N.to_nat t) v) (t + 1).
  Proof.
    intros [Hl Ho] Ht ->. split; [rewrite set_nth_length; auto|].
    intros r Hr. destruct (N.eq_dec r t) as [->|Hne].
    - rewrite nth_set_nth_eq by lia. destruct (N.ltb_spec t (t + 1)); [auto|lia].
    - rewrite nth_set_nth_ne by lia. rewrite Ho by auto.
      destruct (N.ltb_spec r t), (N.ltb_spec r (t + 1)); auto; lia.
  Qed.

  Lemma out_set_ok out t j v : partial_out out t -> (t < N.of_nat jlen)%N ->
    j = Z.of_nat jlen - 1 - Z.of_N t -> v = W t ->
    exists out', out_set out j v = Ok out' /\ partial_out out' (t + 1).
  Proof.
    intros Hp Ht -> Hv. unfold out_set. destruct Hp as [Hl Ho] eqn:Ep.
    rewrite aset_ok by (rewrite ?Hl; lia). eexists. split; [reflexivity|].
    replace (Z.to_nat (Z.of_nat jlen - 1 - Z.of_N t)) with (jlen - 1 - N.to_nat t)%nat by lia.
    apply partial_out_step; auto.
  Qed.
  Lemma out_add_ok out t j v : partial_out out t -> (t < N.of_nat jlen)%N ->
    j = Z.of_nat jlen - 1 - Z.of_N t -> v = W t -> (v < 2 ^ 32)%N ->
    exists out', out_add out j v = Ok out' /\ partial_out out' (t + 1).
  Proof.
    intros Hp Ht -> Hv Hv2. unfold out_add. destruct Hp as [Hl Ho] eqn:Ep.
    rewrite (aget_ok _ _ 0%N) by (rewrite ?Hl; lia). cbn [bind].
    rewrite aset_ok by (rewrite ?Hl; lia). eexists. split; [reflexivity|].
    replace (Z.to_nat (Z.of_nat jlen - 1 - Z.of_N t)) with (jlen - 1 - N.to_nat t)%nat by lia.
    rewrite Ho by auto. destruct (N.ltb_spec t t); [lia|].
    unfold add32. rewrite N.add_0_l, w32_small by auto.
    apply partial_out_step; auto.
  Qed.
  (** two successive additions to the same word *)
  Lemma out_add_ok2 out t j v1 v2 : partial_out out t -> (t < N.of_nat jlen)%N ->
    j = Z.of_nat jlen - 1 - Z.of_N t -> add32 v1 v2 = W t -> (v1 < 2 ^ 32)%N ->
    exists out1, out_add out j v1 = Ok out1 /\
    exists out2, out_add out1 j v2 = Ok out2 /\ partial_out out2 (t + 1).
  Proof.
    intros Hp Ht -> Hv Hv1. unfold out_add. destruct Hp as [Hl Ho] eqn:Ep.
    rewrite (aget_ok out _ 0%N) by (rewrite ?Hl; lia). cbn [bind].
    rewrite aset_ok by (rewrite ?Hl; lia). eexists. split; [reflexivity|].
    rewrite (aget_ok _ _ 0%N) by (rewrite ?set_nth_length, ?Hl; lia). cbn [bind].
    rewrite aset_ok by (rewrite ?set_nth_length, ?Hl; lia). eexists. split; [reflexivity|].
    replace (Z.to_nat (Z.of_nat jlen - 1 - Z.of_N t)) with (jlen - 1 - N.to_nat t)%nat by lia.
    rewrite nth_set_nth_eq by lia. rewrite Ho by auto. destruct (N.ltb_spec t t); [lia|].
    replace (add32 0 v1) with v1 by (unfold add32; rewrite N.add_0_l, w32_small; auto).
    rewrite Hv.
    split; [rewrite !set_nth_length; auto|].
    intros r Hr. destruct (N.eq_dec r t) as [->|Hne].
    - rewrite nth_set_nth_eq by (rewrite set_nth_length; lia).
      destruct (N.ltb_spec t (t + 1)); [auto|lia].
    - rewrite !nth_set_nth_ne by lia. rewrite Ho by auto.
      destruct (N.ltb_spec r t), (N.ltb_spec r (t + 1)); auto; lia.
  Qed.

  Let bs := Z.of_N (offset mod 32).
  Let be := if Z.of_N (E mod 32) =? 0 then 32 else Z.of_N (E mod 32).
  (** number of the word holding the last bit of the window *)
  Let A := ((E - 1) / 32)%N.

  Lemma bs_range : 0 <= bs <= 31.
  Proof. unfold bs. assert (offset mod 32 < 32)%N by (apply N.mod_lt; lia). lia. Qed.
  Lemma be_eq : Z.of_N E = 32 * Z.of_N A + be /\ 1 <= be <= 32.
  Proof.
    unfold be, A. assert (H1 := N.div_mod E 32). assert (H2 := N.mod_lt E 32).
    assert (1 <= E)%N by (unfold E; lia).
    assert (H3 := N.div_mod (E - 1) 32). assert (H4 := N.mod_lt (E - 1) 32).
    destruct (Z.eqb_spec (Z.of_N (E mod 32)) 0); lia.
  Qed.
  Lemma bs_eq : exists a0 : N, Z.of_N offset = 32 * Z.of_N a0 + bs.
  Proof.
    exists (offset / 32)%N. unfold bs. assert (H1 := N.div_mod offset 32). lia.
  Qed.

  Lemma dec_mod a : (1 <= a)%N ->
    (if Z.of_N (a mod L) - 1 <? 0 then Z.of_N L - 1 else Z.of_N (a mod L) - 1)
      = Z.of_N ((a - 1) mod L).
  Proof.
    intros Ha. assert (HL : (0 < L)%N) by (unfold L; lia).
    assert (H1 := N.div_mod a L). assert (H2 := N.mod_lt a L).
    destruct (Z.ltb_spec (Z.of_N (a mod L) - 1) 0).
    - assert (a mod L = 0)%N by lia.
      replace ((a - 1) mod L)%N with (L - 1)%N; [lia|].
      apply (N.mod_unique _ _ (a / L - 1)); [lia|].
      assert (1 <= a / L)%N by nia. nia.
    - replace ((a - 1) mod L)%N with (a mod L - 1)%N; [lia|].
      apply (N.mod_unique _ _ (a / L)); lia.
  Qed.

  (** The rule that makes get_ntuple_cyclic give up. *)
  Definition bad_window : Prop := (32 < n)%N /\ 0 < bs /\ bs < be /\ be < 32.

  (** a word assembled from windows is W t when its bits are *)
  Lemma W_eq v t : (v < 2 ^ 32)%N ->
    (forall k, (k < 32)%N -> N.testbit v k
       = ((32 * t + k <? n) && C (E - 1 - (32 * t + k)))%N) -> v = W t.
  Proof.
    intros Hv Hk. apply N.bits_inj. intro k. unfold W. rewrite testbit_number_of_bits.
    change (N.of_nat 32) with 32%N.
    destruct (N.ltb_spec k 32); cbn [andb]; auto. apply testbit_lt32; auto.
  Qed.

  (** Loop, starting from [t] finished words. *)
  Lemma ntc_loop_spec : forall fuel t a out i j bleft,
    partial_out out t ->
    A = (t + a)%N -> i = Z.of_N (a mod L) -> j = Z.of_nat jlen - 1 - Z.of_N t ->
    bleft = Z.of_N n - 32 * Z.of_N t -> 0 < bleft ->
    (bad_window -> 32 < bleft) ->
    (Z.to_nat bleft < fuel)%nat ->
    (bad_window -> ntc_loop fuel input (Z.of_N L) bs be (be - bs) (32 - bs) out i j bleft = Exit 0) /\
    (~ bad_window -> ntc_loop fuel input (Z.of_N L) bs be (be - bs) (32 - bs) out i j bleft = Ok final_out).
  Proof.
    pose proof bs_range as Hbs. pose proof be_eq as [HE Hbe]. pose proof bs_eq as [a0 Ha0].
    assert (HEn : (E = offset + n)%N) by reflexivity.
    assert (Hbadw : bad_window -> (32 < n)%N /\ 0 < bs /\ bs < be /\ be < 32) by (intro Hx; exact Hx).
    assert (Hbadw' : (32 < n)%N /\ 0 < bs /\ bs < be /\ be < 32 -> bad_window) by (intro Hx; exact Hx).
    revert Hbadw Hbadw'. generalize bad_window as bad. intros bad Hbadw Hbadw'.
    clearbody bs be A E.
    induction fuel as [|fuel IH]; intros t a out i j bleft Hp HA Hi Hjt Hb Hpos Hbad Hfuel; [lia|].
    assert (Ht : (t < N.of_nat jlen)%N) by lia.
    assert (Hm : exists m, bleft = 32 * m + (be - bs) /\ Z.of_N a = m + Z.of_N a0)
      by (exists (Z.of_N a - Z.of_N a0); lia).
    destruct Hm as (m & Hm & HmA).
    cbn [ntc_loop]. destruct (Z.ltb_spec 0 bleft); [|lia].
    destruct (Z.eqb_spec bleft (be - bs)) as [Hr1|Hr1].
    - (* Rule 1 *)
      split; [intro B; apply Hbad in B as B'; apply Hbadw in B; lia|]. intros _. clear Hbad Hbadw Hbadw' IH.
      destruct (win_ok a bs (be - 1) (32 - bleft) i) as (v & Ev & Hv & Bv); try lia; auto.
      rewrite Ev. cbn [bind].
      destruct (out_set_ok out t j v) as (out' & Eo & Po); auto.
      { apply W_eq; auto. intros k Hk. rewrite Bv by lia.
        destruct (N.ltb_spec (32 * t + k) n) as [Hkn|Hkn].
        - replace (32 * a + Z.to_N (31 - (Z.of_N k + (32 - bleft) - bs)))%N
            with (E - 1 - (32 * t + k))%N by lia.
          replace (Z.of_N k <=? 31 - (32 - bleft)) with true by lia.
          replace (31 + bs - (be - 1) - (32 - bleft) <=? Z.of_N k) with true by lia. reflexivity.
        - replace (Z.of_N k <=? 31 - (32 - bleft)) with false by lia. reflexivity. }
      rewrite Eo. f_equal. eapply partial_out_final; [|exact Po]. lia.
    - (* Rule R *)
      assert (Hm1 : 1 <= m) by lia.
      destruct (win_ok a 0 (be - 1) (32 - be) i) as (v1 & Ev1 & Hv1 & Bv1); try lia; auto.
      rewrite Ev1. cbn [bind].
      assert (Ha' : exists a', a = (a' + 1)%N) by (exists (a - 1)%N; lia).
      destruct Ha' as [a' Ha'].
      set (i' := if i - 1 <? 0 then Z.of_N L - 1 else i - 1).
      assert (Ei' : i' = Z.of_N (a' mod L)).
      { unfold i'. rewrite Hi. replace a' with (a - 1)%N by lia. apply dec_mod. lia. }
      clearbody i'.
      assert (Bv1' : forall k, (k < 32)%N -> N.testbit v1 k
          = ((Z.of_N k <? be) && C (E - 1 - (32 * t + k))%N)%Z).
      { intros k Hk. rewrite Bv1 by auto. destruct (Z.ltb_spec (Z.of_N k) be).
        - replace (Z.of_N k <=? 31 - (32 - be)) with true by lia.
          replace (31 + 0 - (be - 1) - (32 - be) <=? Z.of_N k) with true by lia.
          cbn [andb]. f_equal. clear - HE HA Hk H0. lia.
        - replace (Z.of_N k <=? 31 - (32 - be)) with false by lia. reflexivity. }
      clear Bv1.
      destruct (Z.eqb_spec be 32) as [Hbe32|Hbe32].
      + (* whole words *)
        assert (Hnb : ~ bad) by (intro B; apply Hbadw in B; lia).
        split; [intro; contradiction|]. intros _.
        destruct (out_add_ok out t j v1) as (out1 & Eo1 & Po1); auto.
        { apply W_eq; auto. intros k Hk. rewrite Bv1' by auto.
          replace (Z.of_N k <? be) with true by lia.
          replace (32 * t + k <? n)%N with true by lia. reflexivity. }
        rewrite Eo1. cbn [bind].
        destruct (Z.eqb_spec (bleft - be) (32 - bs)) as [H2|H2]; cbn [andb].
        * (* Rule 2b *)
          destruct (win_ok a' bs 31 (32 - (32 - bs)) i') as (v & Ev & Hv & Bv); try lia; auto.
          rewrite Ev. cbn [bind].
          destruct (out_add_ok out1 (t + 1) (j - 1) v) as (out' & Eo & Po); auto; try lia.
          { apply W_eq; auto. intros k Hk. rewrite Bv by lia.
            destruct (N.ltb_spec (32 * (t + 1) + k) n) as [Hkn|Hkn].
            - replace (32 * a' + Z.to_N (31 - (Z.of_N k + (32 - (32 - bs)) - bs)))%N
                with (E - 1 - (32 * (t + 1) + k))%N by (clear - HE HA Hk Hkn Hbe32 Ha' Hbs; lia).
              replace (Z.of_N k <=? 31 - (32 - (32 - bs))) with true by lia.
              replace (31 + bs - 31 - (32 - (32 - bs)) <=? Z.of_N k) with true by lia. reflexivity.
            - replace (Z.of_N k <=? 31 - (32 - (32 - bs))) with false by lia. reflexivity. }
          rewrite Eo. f_equal. eapply partial_out_final; [|exact Po]. lia.
        * destruct (Z.eqb_spec (bleft - be) 0); [lia|]. cbn [negb].
          apply (IH (t + 1)%N a'); auto; clear IH; try contradiction; try lia.
      + rewrite andb_false_r.
        assert (Hadd : forall v2, (v2 < 2 ^ 32)%N ->
          (forall k, (k < 32)%N -> N.testbit v2 k
             = ((be <=? Z.of_N k) && (32 * t + k <? n)%N && C (E - 1 - (32 * t + k))%N)) ->
          add32 v1 v2 = W t).
        { intros v2 Hv2 B2. apply W_eq; [apply w32_lt|]. intros k Hk.
          rewrite add32_disjoint; auto.
          - rewrite Bv1', B2 by auto. destruct (Z.ltb_spec (Z.of_N k) be).
            + replace (be <=? Z.of_N k) with false by lia.
              replace (32 * t + k <? n)%N with true by lia.
              cbn [andb]. apply orb_false_r.
            + replace (be <=? Z.of_N k) with true by lia. reflexivity.
          - intro q. destruct (N.ltb_spec q 32).
            + rewrite Bv1', B2 by auto. destruct (Z.ltb_spec (Z.of_N q) be).
              * replace (be <=? Z.of_N q) with false by lia. apply andb_false_r.
              * reflexivity.
            + rewrite (testbit_lt32 v1) by auto. reflexivity. }
        destruct (Z.eqb_spec (bleft - be) (32 - bs)) as [H2|H2]; cbn [andb];
          [destruct (Z.ltb_spec (32 - bs) 32) as [H3|H3]|].
        * (* Rule 2c *)
          split.
          { intros Hb'. apply Hbadw in Hb'. destruct Hp as [Hl Ho].
            unfold out_add. rewrite (aget_ok out j 0%N) by (rewrite ?Hl; lia). cbn [bind].
            rewrite aset_ok by (rewrite ?Hl; lia). cbn [bind].
            unfold win. rewrite (aget_ok input i' 0%N).
            - cbn [bind]. rewrite b_window_exit; auto. right. right.
              rewrite u32_of_Z_neg by lia. lia.
            - lia.
            - assert (0 < L)%N by (unfold L; lia).
              assert (a' mod L < L)%N by (apply N.mod_lt; lia). unfold L in *. lia. }
          intros Hb'. assert (Hle : be <= bs).
          { destruct (Z.le_gt_cases be bs) as [Hle|Hle]; auto. exfalso. apply Hb', Hbadw'.
            clear Hbadw Hbadw' Hbad IH. lia. }
          clear Hbadw Hbadw' Hbad IH.
          destruct (win_ok a' bs 31 (bs - be) i') as (v2 & Ev2 & Hv2 & Bv2); try lia; auto.
          destruct (out_add_ok2 out t j v1 v2) as (out1 & Eo1 & out2 & Eo2 & Po2); auto.
          { apply Hadd; auto. intros k Hk. rewrite Bv2 by auto.
            destruct (Z.leb_spec be (Z.of_N k)) as [Hbk|Hbk].
            - destruct (N.ltb_spec (32 * t + k) n) as [Hkn|Hkn].
              + replace (Z.of_N k <=? 31 - (bs - be)) with true by lia.
                replace (31 + bs - 31 - (bs - be) <=? Z.of_N k) with true by lia.
                cbn [andb]. f_equal. clear - HE HA Ha' Hk Hbe Hbk Hle Hbs Hkn H2 Hb. lia.
              + replace (Z.of_N k <=? 31 - (bs - be)) with false by lia. reflexivity.
            - replace (31 + bs - 31 - (bs - be) <=? Z.of_N k) with false by lia.
              rewrite andb_false_r. reflexivity. }
          rewrite Eo1. cbn [bind]. rewrite Ev2. cbn [bind]. rewrite Eo2.
          f_equal. eapply partial_out_final; [|exact Po2]. lia.
        * (* Rule L, start at bit 0 of a word, last partial word *)
          destruct (Z.eqb_spec (bleft - be) 0); [lia|]. cbn [negb].
          destruct (win_ok a' be 31 0 i') as (v2 & Ev2 & Hv2 & Bv2); try lia; auto.
          destruct (out_add_ok2 out t j v1 v2) as (out1 & Eo1 & out2 & Eo2 & Po2); auto.
          { apply Hadd; auto. intros k Hk. rewrite Bv2 by auto.
            replace (Z.of_N k <=? 31 - 0) with true by lia.
            replace (31 + be - 31 - 0 <=? Z.of_N k) with (be <=? Z.of_N k) by lia.
            destruct (Z.leb_spec be (Z.of_N k)) as [Hbk|Hbk]; [|reflexivity].
            replace (32 * t + k <? n)%N with true by (clear - Hk Hb Hm Hm1 Hbs Hbe H2 H3; lia).
            cbn [andb]. f_equal. clear - HE HA Ha' Hk Hbe Hbk. lia. }
          rewrite Eo1. cbn [bind]. rewrite Ev2. cbn [bind]. rewrite Eo2. cbn [bind].
          apply (IH (t + 1)%N a'); auto; clear IH; try (intro B; apply Hbad in B as B'; apply Hbadw in B); clear Hbad Hbadw Hbadw'; lia.
        * destruct (Z.eqb_spec (bleft - be) 0); [lia|]. cbn [negb].
          destruct (win_ok a' be 31 0 i') as (v2 & Ev2 & Hv2 & Bv2); try lia; auto.
          destruct (out_add_ok2 out t j v1 v2) as (out1 & Eo1 & out2 & Eo2 & Po2); auto.
          { apply Hadd; auto. intros k Hk. rewrite Bv2 by auto.
            replace (Z.of_N k <=? 31 - 0) with true by lia.
            replace (31 + be - 31 - 0 <=? Z.of_N k) with (be <=? Z.of_N k) by lia.
            destruct (Z.leb_spec be (Z.of_N k)) as [Hbk|Hbk]; [|reflexivity].
            replace (32 * t + k <? n)%N with true by (clear - Hk Hb Hm Hm1 Hbs Hbe H2; lia).
            cbn [andb]. f_equal. clear - HE HA Ha' Hk Hbe Hbk. lia. }
          rewrite Eo1. cbn [bind]. rewrite Ev2. cbn [bind]. rewrite Eo2. cbn [bind].
          apply (IH (t + 1)%N a'); auto; clear IH; try (intro B; apply Hbad in B as B'; apply Hbadw in B); clear Hbad Hbadw Hbadw'; lia.
  Qed.

  Lemma partial_out_init : partial_out (repeat 0%N jlen) 0.
  Proof.
    split; [apply repeat_length|]. intros r Hr. rewrite nth_repeat.
    destruct (N.ltb_spec r 0); auto. lia.
  Qed.

  Lemma get_ntuple_cyclic_spec :
    (bad_window -> get_ntuple_cyclic input L (N.of_nat jlen) n offset = Exit 0) /\
    (~ bad_window -> get_ntuple_cyclic input L (N.of_nat jlen) n offset = Ok final_out).
  Proof.
    pose proof bs_range as Hbs. pose proof be_eq as [HE Hbe]. pose proof bs_eq as [a0 Ha0].
    assert (HL : (0 < L)%N) by (unfold L; lia).
    assert (HE32 : add32 offset n = E) by (unfold add32; apply w32_small; auto).
    unfold get_ntuple_cyclic. rewrite HE32. fold bs. fold be. cbv zeta.
    destruct (N.eqb_spec L 0); [lia|].
    assert (Hi : Z.of_N (u32_of_Z (if be =? 32 then Z.of_N (E / 32) - 1 else Z.of_N (E / 32)) mod L)
                 = Z.of_N (A mod L)).
    { assert (Hdm := N.div_mod E 32). assert (Hml := N.mod_lt E 32).
      assert (E1 : (if be =? 32 then Z.of_N (E / 32) - 1 else Z.of_N (E / 32)) = Z.of_N A).
      { unfold be in *. destruct (Z.eqb_spec (Z.of_N (E mod 32)) 0).
        - change (32 =? 32) with true. cbv iota. lia.
        - destruct (Z.eqb_spec (Z.of_N (E mod 32)) 32); lia. }
      rewrite E1. rewrite u32_of_Z_small, N2Z.id; auto.
      unfold E in *. clear - HE Hbe Hov. lia. }
    rewrite Hi, Nat2N.id.
    replace (Z.of_N (N.of_nat jlen)) with (Z.of_nat jlen) by lia.
    destruct (Z.eqb_spec (Z.of_N n) (32 - bs)) as [H2a|H2a].
    - (* Rule 2a *)
      split; [unfold bad_window; lia|]. intros _.
      destruct (win_ok A bs 31 (32 - (32 - bs)) (Z.of_N (A mod L))) as (v & Ev & Hv & Bv); try lia; auto.
      rewrite Ev. cbn [bind].
      assert (Hbe32 : be = 32) by (unfold E in *; lia).
      destruct (out_add_ok (repeat 0%N jlen) 0 (Z.of_nat jlen - 1) v) as (out' & Eo & Po);
        auto using partial_out_init; try lia.
      { apply W_eq; auto. intros k Hk. rewrite Bv by lia.
        destruct (N.ltb_spec (32 * 0 + k) n) as [Hkn|Hkn].
        - replace (32 * A + Z.to_N (31 - (Z.of_N k + (32 - (32 - bs)) - bs)))%N
            with (E - 1 - (32 * 0 + k))%N by (clear - HE Hk Hbe32 Hbs; lia).
          replace (Z.of_N k <=? 31 - (32 - (32 - bs))) with true by lia.
          replace (31 + bs - 31 - (32 - (32 - bs)) <=? Z.of_N k) with true by lia. reflexivity.
        - replace (Z.of_N k <=? 31 - (32 - (32 - bs))) with false by lia. reflexivity. }
      rewrite Eo. cbn [bind].
      destruct (Z.eqb_spec (Z.of_N n - (32 - bs)) (be - bs)); [lia|]. cbn [bind].
      rewrite H2a, Z.sub_diag. cbn [ntc_loop]. change (0 <? 0) with false. cbv iota.
      f_equal. eapply partial_out_final; [|exact Po]. lia.
    - cbn [bind]. destruct (Z.eqb_spec (Z.of_N n) (be - bs)) as [H1a|H1a].
      + (* Rule 1a *)
        split; [unfold bad_window; lia|]. intros _.
        destruct (win_ok A bs (be - 1) (32 - Z.of_N n) (Z.of_N (A mod L))) as (v & Ev & Hv & Bv); try lia; auto.
        rewrite Ev. cbn [bind].
        destruct (out_set_ok (repeat 0%N jlen) 0 (Z.of_nat jlen - 1) v) as (out' & Eo & Po);
          auto using partial_out_init; try lia.
        { apply W_eq; auto. intros k Hk. rewrite Bv by lia.
          destruct (N.ltb_spec (32 * 0 + k) n) as [Hkn|Hkn].
          - replace (32 * A + Z.to_N (31 - (Z.of_N k + (32 - Z.of_N n) - bs)))%N
              with (E - 1 - (32 * 0 + k))%N by (clear - HE Hk H1a Hkn Hbs Hbe; lia).
            replace (Z.of_N k <=? 31 - (32 - Z.of_N n)) with true by lia.
            replace (31 + bs - (be - 1) - (32 - Z.of_N n) <=? Z.of_N k) with true by lia. reflexivity.
          - replace (Z.of_N k <=? 31 - (32 - Z.of_N n)) with false by lia. reflexivity. }
        rewrite Eo. cbn [bind].
        rewrite H1a, Z.sub_diag. cbn [ntc_loop]. change (0 <? 0) with false. cbv iota.
        f_equal. eapply partial_out_final; [|exact Po]. lia.
      + cbn [bind].
        apply (ntc_loop_spec (S (N.to_nat n)) 0 A); auto using partial_out_init; try lia.
        unfold bad_window. lia.
  Qed.

  Lemma final_out_length : length final_out = jlen.
  Proof. unfold final_out. rewrite map_length, seq_length. auto. Qed.
  Lemma final_out_words w : In w final_out -> (w < 2 ^ 32)%N.
  Proof.
    unfold final_out. intros H. apply in_map_iff in H. destruct H as (j & <- & _).
    unfold W. apply (number_of_bits_lt _ 32).
  Qed.
  Lemma final_out_value : big_endian_value final_out = window_value C offset (N.to_nat n).
  Proof.
    apply N.bits_inj. intro q. rewrite testbit_big_endian by apply final_out_words.
    unfold window_value. rewrite testbit_number_of_bits, N2Nat.id, final_out_length.
    assert (Hdm := N.div_mod q 32). assert (Hml := N.mod_lt q 32).
    destruct (N.ltb_spec (q / 32) (N.of_nat jlen)) as [H|H]; cbn [andb].
    - unfold final_out.
      rewrite (nth_indep (map _ _) 0%N ((fun j => W (N.of_nat (jlen - 1 - j))) 0%nat))
        by (rewrite map_length, seq_length; lia).
      rewrite (map_nth (fun j => W (N.of_nat (jlen - 1 - j)))).
      rewrite seq_nth by lia. cbn [Nat.add].
      replace (N.of_nat (jlen - 1 - (jlen - 1 - N.to_nat (q / 32)))) with (q / 32)%N by lia.
      unfold W. rewrite testbit_number_of_bits. change (N.of_nat 32) with 32%N.
      replace (q mod 32 <? 32)%N with true by lia. cbn [andb].
      replace (32 * (q / 32) + q mod 32)%N with q by lia. reflexivity.
    - replace (q <? n)%N with false; [reflexivity|].
      symmetry. apply N.ltb_ge. lia.
  Qed.
End Cyclic.

(** The windows on which get_ntuple_cyclic gives up. *)
Definition rejected_window (offset n : N) : Prop :=
  (32 < n /\ 0 < offset mod 32 /\ offset mod 32 < (offset + n) mod 32)%N.

Lemma rejected_window_bad offset n :
  rejected_window offset n <-> bad_window offset n.
Proof.
  unfold rejected_window, bad_window.
  assert (H := N.mod_lt (offset + n) 32).
  destruct (Z.eqb_spec (Z.of_N ((offset + n) mod 32)) 0); lia.
Qed.

Lemma get_ntuple_cyclic_long input offset n jlen :
  (1 <= length input)%nat -> (N.of_nat (length input) < 2 ^ 31)%N ->
  (forall w, In w input -> (w < 2 ^ 32)%N) ->
  (1 <= n)%N -> (n <= 32 * N.of_nat jlen)%N -> (offset + n < 2 ^ 32)%N ->
  (N.of_nat jlen < 2 ^ 31)%N -> ~ rejected_window offset n ->
  exists out, get_ntuple_cyclic input (N.of_nat (length input)) (N.of_nat jlen) n offset = Ok out /\
    length out = jlen /\ (forall w, In w out -> (w < 2 ^ 32)%N) /\
    big_endian_value out = window_value (cyclic_msb_bit input) offset (N.to_nat n).
Proof.
  intros H1 H2 H3 H4 H5 H6 H7 H8. exists (final_out input offset n jlen).
  split; [|split; [apply final_out_length|split]].
  - apply get_ntuple_cyclic_spec; auto. rewrite <- rejected_window_bad. auto.
  - apply final_out_words.
  - apply final_out_value; auto.
Qed.

Lemma get_ntuple_cyclic_rejects input offset n jlen :
  (1 <= length input)%nat -> (N.of_nat (length input) < 2 ^ 31)%N ->
  (forall w, In w input -> (w < 2 ^ 32)%N) ->
  (1 <= n)%N -> (n <= 32 * N.of_nat jlen)%N -> (offset + n < 2 ^ 32)%N ->
  (N.of_nat jlen < 2 ^ 31)%N -> rejected_window offset n ->
  get_ntuple_cyclic input (N.of_nat (length input)) (N.of_nat jlen) n offset = Exit 0.
Proof.
  intros H1 H2 H3 H4 H5 H6 H7 H8. apply get_ntuple_cyclic_spec; auto.
  rewrite <- rejected_window_bad. auto.
Qed.

Lemma get_ntuple_cyclic_short input offset n jlen :
  (1 <= length input)%nat -> (N.of_nat (length input) < 2 ^ 31)%N ->
  (forall w, In w input -> (w < 2 ^ 32)%N) ->
  (1 <= n)%N -> (n <= 32)%N -> (offset + n < 2 ^ 32)%N ->
  (1 <= jlen)%nat -> (N.of_nat jlen < 2 ^ 31)%N ->
  get_ntuple_cyclic input (N.of_nat (length input)) (N.of_nat jlen) n offset
    = Ok (repeat 0%N (jlen - 1) ++ [window_value (cyclic_msb_bit input) offset (N.to_nat n)]).
Proof.
  intros H1 H2 H3 H4 H5 H6 H7 H8.
  destruct (get_ntuple_cyclic_spec input H1 H2 H3 offset n jlen H4 ltac:(lia) H6 H8) as [_ H].
  rewrite H by (unfold bad_window; lia). f_equal. clear H.
  apply (nth_ext _ _ 0%N 0%N).
  - rewrite final_out_length, app_length, repeat_length. simpl. lia.
  - intros m Hm. rewrite final_out_length in Hm. unfold final_out.
    rewrite (nth_indep (map _ _) 0%N ((fun j => W input offset n (N.of_nat (jlen - 1 - j))) 0%nat))
      by (rewrite map_length, seq_length; lia).
    rewrite (map_nth (fun j => W input offset n (N.of_nat (jlen - 1 - j)))).
    rewrite seq_nth by lia. cbn [Nat.add].
    apply N.bits_inj. intro k. unfold W. rewrite testbit_number_of_bits.
    change (N.of_nat 32) with 32%N.
    destruct (Nat.eq_dec m (jlen - 1)) as [->|Hne].
    + rewrite app_nth2, repeat_length, Nat.sub_diag by (rewrite repeat_length; lia).
      cbn [nth]. unfold window_value. rewrite testbit_number_of_bits, N2Nat.id.
      replace (32 * N.of_nat 0 + k)%N with k by lia.
      destruct (N.ltb_spec k n); cbn [andb]; [|apply andb_false_r].
      replace (k <? 32)%N with true by lia. reflexivity.
    + rewrite app_nth1 by (rewrite repeat_length; lia). rewrite nth_repeat, N.bits_0.
      replace (32 * N.of_nat (jlen - 1 - m) + k <? n)%N with false by lia. apply andb_false_r.
Qed.
