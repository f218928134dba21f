(** Proofs about get_rand_bits, for any source of 32-bit words. *)
From Verif Require Export CyclicLemmas UintLemmas.
Open Scope N_scope.

Section RandBits.
  Variable g : N -> N.
  Variable w : N.
  Variable u : nat -> N.
  Variable inv : nat -> ustate -> Prop.
  Hypothesis Hstep : forall j s, inv j s ->
    exists s', get_uint_rand g w s = Ok (u j, s') /\ inv (S j) s'.
  Hypothesis Hu : forall j, u j < 2 ^ 32.

  Definition ubit : N -> bool := stream_lsb (fun i => u (N.to_nat i)) 32.

  (** where word number [a] lives in the circular buffer *)
  Definition slot (a : N) : Z := (5 - Z.of_N (a mod 6))%Z.
  Lemma slot_range a : (0 <= slot a <= 5)%Z.
  Proof. unfold slot. assert (a mod 6 < 6) by (apply N.mod_lt; discriminate). lia. Qed.
  Lemma slot_inj a b : a <= b -> b < a + 6 -> slot a = slot b -> a = b.
  Proof.
    unfold slot. intros H1 H2 H3.
    assert (Ha := N.div_mod a 6). assert (Hb := N.div_mod b 6).
    assert (a mod 6 < 6) by (apply N.mod_lt; discriminate). lia.
  Qed.
  Lemma slot_next a : (let i := slot a - 1 in if i <? 0 then i + 6 else i)%Z = slot (a + 1).
  Proof.
    unfold slot. cbv zeta.
    assert (Ha := N.div_mod a 6). assert (Hb := N.div_mod (a + 1) 6).
    assert (a mod 6 < 6) by (apply N.mod_lt; discriminate).
    assert ((a + 1) mod 6 < 6) by (apply N.mod_lt; discriminate).
    destruct (Z.ltb_spec (5 - Z.of_N (a mod 6) - 1) 0); lia.
  Qed.
  Lemma slot_wrap a : slot (a + 6) = slot a.
  Proof. unfold slot. replace (a + 6) with (a + 1 * 6) by lia. rewrite N.mod_add by discriminate. auto. Qed.

  (** the buffer holds words K .. K+5 *)
  Definition buf_ok (K : N) (buf : list N) : Prop :=
    length buf = 6%nat /\
    forall a, K <= a -> a < K + 6 -> nth (Z.to_nat (slot a)) buf 0 = u (N.to_nat a).

  Lemma buf_fill_spec : forall n s buf, inv (6 - n) s -> (n <= 6)%nat -> length buf = 6%nat ->
    (forall a, (a < 6 - n)%nat -> nth (5 - a) buf 0 = u a) ->
    exists s' buf', buf_fill g w n s buf = Ok (s', buf') /\ inv 6 s' /\ length buf' = 6%nat /\
      (forall a, (a < 6)%nat -> nth (5 - a) buf' 0 = u a).
  Proof.
    induction n as [|n IH]; intros s buf Hs Hn Hl Hb; cbn [buf_fill].
    - exists s, buf. rewrite Nat.sub_0_r in *. auto.
    - destruct (Hstep _ _ Hs) as (s1 & E1 & H1). rewrite E1. cbn [bind].
      rewrite aset_ok by lia. cbn [bind]. rewrite Nat2Z.id.
      apply IH.
      + replace (6 - n)%nat with (S (6 - S n)) by lia. auto.
      + lia.
      + rewrite set_nth_length. auto.
      + intros a Ha. destruct (Nat.eq_dec a (6 - S n)) as [->|Hne].
        * replace (5 - (6 - S n))%nat with n by lia. rewrite nth_set_nth_eq by lia. auto.
        * rewrite nth_set_nth_ne by lia. apply Hb. lia.
  Qed.

  Lemma backfill_spec : forall fuel K K' s buf,
    inv (N.to_nat K + 6) s -> buf_ok K buf -> K <= K' -> K' < K + 6 ->
    (N.to_nat (K' - K) < fuel)%nat ->
    exists s' buf', backfill g w fuel s buf (slot K) (slot K') = Ok (s', buf', slot K') /\
      inv (N.to_nat K' + 6) s' /\ buf_ok K' buf'.
  Proof.
    induction fuel as [|fuel IH]; intros K K' s buf Hs Hb H1 H2 Hf; [lia|].
    cbn [backfill]. destruct (Z.eqb_spec (slot K) (slot K')) as [E|E].
    - apply slot_inj in E; auto. subst K'. exists s, buf. auto.
    - assert (K <> K') by congruence.
      destruct (Hstep _ _ Hs) as (s1 & E1 & Hs1). rewrite E1. cbn [bind].
      destruct Hb as [Hl Hb]. pose proof (slot_range K).
      rewrite aset_ok by (rewrite ?Hl; lia). cbn [bind].
      pose proof (slot_next K) as En. cbv zeta in En. cbv zeta. rewrite En.
      apply IH; try lia.
      + replace (N.to_nat (K + 1) + 6)%nat with (S (N.to_nat K + 6)) by lia. auto.
      + split; [rewrite set_nth_length; auto|]. intros a Ha1 Ha2.
        destruct (N.eq_dec a (K + 6)) as [->|Hne].
        * rewrite slot_wrap, nth_set_nth_eq by (rewrite Hl; lia). f_equal. lia.
        * pose proof (slot_range a). rewrite nth_set_nth_ne; [apply Hb; lia|].
          intros Hc. apply Hne. assert (slot K = slot a) by lia.
          apply slot_inj in H4; lia.
  Qed.

  (** the word being consumed after [P] bits *)
  Definition cur (P : N) : N := if P =? 0 then 0 else (P - 1) / 32.

  (** buffer state ready to serve bit [P] *)
  Definition ready (P : N) (s : bstate) : Prop :=
    inv (N.to_nat (cur P) + 6) (bu s) /\ buf_ok (cur P) (randbuf s) /\
    iclear s = slot (cur P) /\
    (0 <= bitindex s < 32)%Z /\ (0 <= brindex s * 32 + bitindex s <= 192)%Z /\
    exists q, (brindex s * 32 + bitindex s + Z.of_N P = 192 * q)%Z.

  Definition binv (P : N) (s : bstate) : Prop :=
    (P = 0 /\ brindex s = (-1)%Z /\ length (randbuf s) = 6%nat /\ inv 0 (bu s)) \/
    (ready P s /\ (0 <= brindex s)%Z).

  Lemma cur_words P k : P <= k -> k < P + 128 -> cur P <= k / 32 /\ k / 32 < cur P + 6.
  Proof.
    intros H1 H2. unfold cur. assert (Hk := N.div_mod k 32).
    assert (k mod 32 < 32) by (apply N.mod_lt; discriminate).
    destruct (N.eqb_spec P 0); [lia|].
    assert (Hp := N.div_mod (P - 1) 32).
    assert ((P - 1) mod 32 < 32) by (apply N.mod_lt; discriminate). lia.
  Qed.

  Lemma buffer_bit K buf a c q x : buf_ok K buf -> K <= a -> a < K + 6 -> c < 32 ->
    (Z.of_N x = 192 * q - 1 - Z.of_N (32 * a + c))%Z ->
    cyclic_msb_bit buf x = N.testbit (u (N.to_nat a)) c.
  Proof.
    intros [Hl Hb] H1 H2 Hc Hx. unfold cyclic_msb_bit. rewrite Hl.
    change (32 * N.of_nat 6) with 192.
    assert (Ha := N.div_mod a 6). assert (a mod 6 < 6) by (apply N.mod_lt; discriminate).
    assert (Em : x mod 192 = 32 * (5 - a mod 6) + (31 - c)).
    { symmetry. apply (N.mod_unique _ _ (Z.to_N (q - 1 - Z.of_N (a / 6)))); lia. }
    rewrite Em.
    replace ((32 * (5 - a mod 6) + (31 - c)) / 32) with (5 - a mod 6)
      by (apply (N.div_unique _ _ _ (31 - c)); lia).
    replace ((32 * (5 - a mod 6) + (31 - c)) mod 32) with (31 - c)
      by (apply (N.mod_unique _ _ (5 - a mod 6)); lia).
    unfold msb. replace (31 - (31 - c)) with c by lia. f_equal.
    rewrite <- Hb by auto. f_equal. unfold slot. lia.
  Qed.

  Lemma buf_words K buf x : buf_ok K buf -> In x buf -> x < 2 ^ 32.
  Proof.
    intros [Hl Hb] Hx. apply (In_nth _ _ 0) in Hx. destruct Hx as (m & Hm & <-).
    rewrite Hl in Hm.
    (* find the word stored in slot m *)
    assert (exists a, K <= a /\ a < K + 6 /\ slot a = Z.of_nat m) as (a & A1 & A2 & A3).
    { assert (HK := N.div_mod K 6). assert (K mod 6 < 6) by (apply N.mod_lt; discriminate).
      assert (Hd : forall t, t < 6 -> (6 * (K / 6) + t) mod 6 = t /\ (6 * (K / 6 + 1) + t) mod 6 = t).
      { intros t Ht. split; symmetry; eapply N.mod_unique; eauto. }
      destruct (Hd (5 - N.of_nat m)) as [D1 D2]; [lia|].
      destruct (N.lt_ge_cases (5 - N.of_nat m) (K mod 6)).
      - exists (6 * (K / 6 + 1) + (5 - N.of_nat m)). unfold slot. rewrite D2. lia.
      - exists (6 * (K / 6) + (5 - N.of_nat m)). unfold slot. rewrite D1. lia. }
    specialize (Hb a A1 A2). rewrite A3, Nat2Z.id in Hb. rewrite Hb. apply Hu.
  Qed.

  Lemma lsb_window (bit bit' : N -> bool) P n off :
    (forall k, k < N.of_nat n -> bit' (off + N.of_nat n - 1 - k) = bit (P + k)) ->
    window_value bit' off n = lsb_value bit P n.
  Proof.
    intros H. unfold window_value, lsb_value. apply number_of_bits_ext. auto.
  Qed.

  (** One effective request. *)
  Definition offset_of (P n : N) : N := Z.to_N ((- Z.of_N (P + n)) mod 192)%Z.

  Lemma get_rand_bits_step P rsize n s :
    binv P s -> 1 <= n -> n <= 128 -> n <= rsize * 8 -> rsize <= 24 ->
    (rejected_window (offset_of P n) n -> get_rand_bits g w rsize n s = Exit 0) /\
    (~ rejected_window (offset_of P n) n ->
      exists out s', get_rand_bits g w rsize n s
          = Ok (skipn (N.to_nat (24 - rsize)) (flat_map le_bytes out), s') /\
        length out = 6%nat /\ (forall x, In x out -> x < 2 ^ 32) /\
        big_endian_value out = lsb_value ubit P (N.to_nat n) /\ binv (P + n) s').
  Proof.
    intros Hinv Hn1 Hn2 Hr1 Hr2. unfold get_rand_bits.
    destruct (N.eqb_spec n 0); [lia|]. destruct (N.ltb_spec 128 n); [lia|].
    rewrite w32_small by (eapply N.le_lt_trans; [apply N.mul_le_mono_r; exact Hr2|reflexivity]).
    destruct (N.ltb_spec (rsize * 8) n); [lia|]. cbv zeta.
    (* initialisation *)
    assert (Hinit : exists s0, (if (brindex s =? -1)%Z then
               do (u0, buf) <- buf_fill g w 6 (bu s) (randbuf s) ;; Ok (mkB u0 buf 6 5 0)
             else Ok s) = Ok s0 /\ ready P s0).
    { destruct Hinv as [(-> & Hb & Hl & Hi)|[Hr Hb]].
      - rewrite Hb. cbn [Z.eqb Pos.eqb].
        destruct (buf_fill_spec 6 (bu s) (randbuf s)) as (s' & buf' & E & Hi' & Hl' & Hb'); auto.
        { intros a Ha. lia. }
        rewrite E. cbn [bind]. eexists. split; [reflexivity|].
        unfold ready. cbn [bu randbuf iclear brindex bitindex].
        change (cur 0) with 0. split; [exact Hi'|]. split.
        { split; auto. intros a _ Ha. unfold slot. rewrite N.mod_small by lia.
          rewrite <- Hb' by lia. f_equal. lia. }
        split; [reflexivity|]. split; [lia|]. split; [lia|]. exists 1%Z. reflexivity.
      - replace (brindex s =? -1)%Z with false by lia. exists s. auto. }
    destruct Hinit as (s0 & E0 & Hrd). rewrite E0. cbn [bind]. clear E0 Hinv s.
    destruct Hrd as (Hi & Hbuf & Hic & Hbit & Hlin & q & Hq).
    (* indices *)
    set (B := (brindex s0 - Z.of_N (n / 32))%Z). set (b := (bitindex s0 - Z.of_N (n mod 32))%Z).
    set (pr := if (b <? 0)%Z then (B - 1, b + 32)%Z else (B, b)).
    assert (Hpr : exists B1 b1, pr = (B1, b1) /\ (0 <= b1 < 32)%Z /\
        (32 * B1 + b1 = 32 * brindex s0 + bitindex s0 - Z.of_N n)%Z).
    { assert (Hdm := N.div_mod n 32). assert (n mod 32 < 32) by (apply N.mod_lt; discriminate).
      unfold pr. destruct (Z.ltb_spec b 0); eexists; eexists; (split; [reflexivity|]); unfold B, b in *; lia. }
    destruct Hpr as (B1 & b1 & -> & Hb1 & HB1). clear B b.
    set (B2 := if (B1 <? 0)%Z then (B1 + 6)%Z else B1).
    assert (HB2 : (0 <= B2 <= 5)%Z /\ exists q', (32 * B2 + b1 + Z.of_N (P + n) = 192 * q')%Z).
    { unfold B2. destruct (Z.ltb_spec B1 0).
      - split; [lia|]. exists (q + 1)%Z. lia.
      - split; [lia|]. exists q. lia. }
    destruct HB2 as [HB2 (q' & Hq')]. clearbody B2. clear HB1 B1.
    assert (Hoff : u32_of_Z (B2 * 32 + b1) = offset_of P n).
    { rewrite u32_of_Z_small by lia. unfold offset_of. f_equal.
      apply (Z.mod_unique_pos _ _ (- q')); lia. }
    assert (HoffZ : (Z.of_N (offset_of P n) = 32 * B2 + b1)%Z).
    { rewrite <- Hoff, u32_of_Z_small by lia. lia. }
    rewrite Hoff.
    (* new current word *)
    assert (Hcur : slot (cur (P + n)) = B2 /\ cur P <= cur (P + n) /\ cur (P + n) < cur P + 6).
    { unfold cur at 1 3 4. destruct (N.eqb_spec (P + n) 0); [lia|].
      split; [|replace (P + n - 1) with (P + (n - 1)) by lia; apply cur_words; lia].
      unfold slot. set (K := (P + n - 1) / 32).
      assert (Hdm := N.div_mod (P + n - 1) 32). fold K in Hdm.
      assert ((P + n - 1) mod 32 < 32) by (apply N.mod_lt; discriminate).
      assert (HK := N.div_mod K 6). assert (K mod 6 < 6) by (apply N.mod_lt; discriminate).
      assert (Hsum : exists t, (b1 + Z.of_N ((P + n - 1) mod 32) + 1 = 32 * t)%Z)
        by (exists (6 * q' - B2 - Z.of_N K)%Z; lia).
      destruct Hsum as (t & Ht). assert (t = 1%Z) by lia. subst t.
      assert (B2 + Z.of_N K + 1 = 6 * q')%Z by lia. lia. }
    destruct Hcur as (HcB & Hc1 & Hc2).
    assert (Hwords : forall x, In x (randbuf s0) -> x < 2 ^ 32)
      by (intros x; apply (buf_words (cur P)); auto).
    assert (Hl := proj1 Hbuf).
    assert (HlN : 6 = N.of_nat (length (randbuf s0))) by (rewrite Hl; reflexivity).
    split.
    - intros Hrej. assert (Er : get_ntuple_cyclic (randbuf s0) 6 6 n (offset_of P n) = Exit 0).
      { rewrite HlN at 1. change 6 with (N.of_nat 6).
        apply get_ntuple_cyclic_rejects; auto; rewrite ?Hl; lia. }
      rewrite Er. reflexivity.
    - intros Hacc.
      destruct (get_ntuple_cyclic_long (randbuf s0) (offset_of P n) n 6)
        as (out & Eo & Ho1 & Ho2 & Ho3); auto; rewrite ?Hl; try lia.
      rewrite <- HlN in Eo. change (N.of_nat 6) with 6 in Eo. rewrite Eo. cbn [bind].
      rewrite Hic. rewrite <- HcB.
      destruct (backfill_spec 7 (cur P) (cur (P + n)) (bu s0) (randbuf s0))
        as (s' & buf' & Ebf & Hi' & Hb'); auto; try lia.
      rewrite Ebf. cbn [bind]. destruct (N.ltb_spec 24 rsize); [lia|].
      exists out. eexists. split; [reflexivity|]. split; auto. split; auto. split.
      + rewrite Ho3. apply lsb_window. rewrite N2Nat.id. intros k Hk.
        unfold ubit, stream_lsb.
        destruct (cur_words P (P + k)) as [C1 C2]; try lia.
        assert (Hdm := N.div_mod (P + k) 32). assert ((P + k) mod 32 < 32) by (apply N.mod_lt; discriminate).
        apply (buffer_bit (cur P) _ _ _ q'); auto. lia.
      + right. unfold ready. cbn [bu randbuf iclear brindex bitindex].
        rewrite HcB. split; [|lia]. rewrite <- HcB at 1. split; auto. split; auto.
        split; [auto|]. split; [auto|]. split; [lia|]. exists q'. lia.
  Qed.

  (** Requests of at most 32 bits into a 4-byte result. *)
  Lemma flat_map_repeat0 m v : flat_map le_bytes (repeat 0 m ++ [v]) = repeat 0 (4 * m) ++ le_bytes v.
  Proof.
    induction m; [reflexivity|]. replace (4 * S m)%nat with (4 + 4 * m)%nat by lia.
    cbn [repeat app flat_map]. rewrite IHm. reflexivity.
  Qed.

  Lemma single_word out v : length out = 6%nat -> (forall x, In x out -> x < 2 ^ 32) ->
    big_endian_value out = v -> v < 2 ^ 32 -> out = repeat 0 5 ++ [v].
  Proof.
    intros Hl Hw Hv Hlt. apply (nth_ext _ _ 0 0); [rewrite Hl; reflexivity|].
    intros m Hm. rewrite Hl in Hm.
    apply N.bits_inj. intro k.
    assert (Hin : nth m out 0 < 2 ^ 32) by (apply Hw, nth_In; lia).
    destruct (N.lt_ge_cases k 32) as [Hk|Hk].
    - assert (T := testbit_big_endian out (32 * N.of_nat (5 - m) + k) Hw).
      rewrite Hv, Hl in T.
      replace ((32 * N.of_nat (5 - m) + k) / 32) with (N.of_nat (5 - m)) in T
        by (apply (N.div_unique _ _ _ k); lia).
      replace ((32 * N.of_nat (5 - m) + k) mod 32) with k in T
        by (apply (N.mod_unique _ _ (N.of_nat (5 - m))); lia).
      replace (N.of_nat (5 - m) <? N.of_nat 6) with true in T by lia.
      replace (6 - 1 - N.to_nat (N.of_nat (5 - m)))%nat with m in T by lia. cbn [andb] in T.
      rewrite <- T. destruct (Nat.eq_dec m 5) as [->|Hne].
      + cbn. reflexivity.
      + rewrite (testbit_lt32 v) by (auto; lia). symmetry.
        rewrite app_nth1 by (rewrite repeat_length; lia). rewrite nth_repeat. apply N.bits_0.
    - rewrite testbit_lt32 by auto. symmetry. destruct (Nat.eq_dec m 5) as [->|Hne].
      + apply testbit_lt32; auto.
      + rewrite app_nth1 by (rewrite repeat_length; lia). rewrite nth_repeat. apply N.bits_0.
  Qed.

  Lemma short_not_rejected off n : n <= 32 -> ~ rejected_window off n.
  Proof. unfold rejected_window. lia. Qed.

  Lemma get_rand_bits_short P n s : binv P s -> n <= 32 ->
    exists s', get_rand_bits g w 4 n s = Ok (le_bytes (lsb_value ubit P (N.to_nat n)), s') /\
      binv (P + n) s'.
  Proof.
    intros Hinv Hn. destruct (N.eq_dec n 0) as [->|Hn0].
    { exists s. split; [reflexivity|]. rewrite N.add_0_r. auto. }
    destruct (get_rand_bits_step P 4 n s Hinv) as [_ H]; try lia.
    destruct (H (short_not_rejected _ _ Hn)) as (out & s' & E & Hl & Hw & Hv & Hi).
    exists s'. split; auto. rewrite E. f_equal. f_equal.
    rewrite (single_word out _ Hl Hw Hv).
    - rewrite flat_map_repeat0. reflexivity.
    - eapply N.lt_le_trans; [apply number_of_bits_lt|]. apply N.pow_le_mono_r; lia.
  Qed.

  Lemma run_bits_short reqs : forall P s, binv P s -> (forall n, In n reqs -> n <= 32) ->
    exists s', run_bits g w (map (fun n => (4, n)) reqs) s
      = Ok (pieces (fun p n => le_bytes (lsb_value ubit p (N.to_nat n))) P reqs, s').
  Proof.
    induction reqs as [|n reqs IH]; intros P s Hs Hr; cbn [map run_bits pieces].
    - eexists. reflexivity.
    - destruct (get_rand_bits_short P n s Hs (Hr n (or_introl eq_refl))) as (s1 & E1 & H1).
      rewrite E1. cbn [bind].
      destruct (IH (P + n) s1 H1 (fun n' H => Hr n' (or_intror H))) as (s2 & E2).
      rewrite E2. eexists. reflexivity.
  Qed.
End RandBits.
