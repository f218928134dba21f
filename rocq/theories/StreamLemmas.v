(** Consequences for whole histories of requests. *)
From Verif Require Export RandBitsLemmas RbuLemmas ResetLemmas PatternLemmas StreamHistorySpec.
Open Scope N_scope.

(** get_uint_rand *)
Lemma run_uint_wide g s n : (forall i, g i < 2 ^ 32) -> bleft s = (-1)%Z ->
  exists s', run_uint g 32 n s = Ok (map (fun j => g (gpos s + N.of_nat j)) (seq 0 n), s').
Proof.
  intros Hg Hb.
  destruct (run_uint_steps g 32 _ _ (wide_step g Hg (gpos s)) n 0 s) as (s' & E & _).
  - split; auto.
  - exists s'. exact E.
Qed.
Lemma run_uint_narrow g w s n : 1 <= w -> w < 32 -> (forall i, g i < 2 ^ w) -> bleft s = (-1)%Z ->
  exists s', run_uint g w n s
    = Ok (map (uint_rand_word (fun i => g (gpos s + i)) w) (seq 0 n), s').
Proof.
  intros H1 H2 Hg Hb.
  destruct (run_uint_steps g w _ _ (narrow_step g w H1 H2 Hg (gpos s)) n 0 s) as (s' & E & _).
  - split; auto.
  - exists s'. exact E.
Qed.
Lemma uint_rand_word_clean g w j : (32 * N.of_nat j) mod w <> 0 \/ j = 0%nat ->
  uint_rand_word g w j = lsb_value (stream_lsb g w) (32 * N.of_nat j) 32.
Proof.
  intros H. destruct j; cbn [uint_rand_word]; [reflexivity|].
  destruct (N.eqb_spec ((32 * N.of_nat (S j)) mod w) 0); auto. destruct H; [contradiction|discriminate].
Qed.

(** get_rand_bits *)
Lemma nth_skipn {A} k : forall (l : list A) i d, nth i (skipn k l) d = nth (k + i) l d.
Proof.
  induction k; intros [|x l] i d; try reflexivity.
  - destruct i; reflexivity.
  - cbn [skipn Nat.add nth]. apply IHk.
Qed.
Lemma be_words_eq out v : (forall x, In x out -> x < 2 ^ 32) ->
  big_endian_value out = v -> forall m, (m <= length out)%nat ->
  skipn (length out - m) out = be_words m v.
Proof.
  intros Hw Hv m Hm. unfold be_words.
  apply (nth_ext _ _ 0 0); [rewrite skipn_length, map_length, seq_length; lia|].
  intros i Hi. rewrite skipn_length in Hi.
  rewrite (nth_indep (map _ _) 0 ((fun j => (v / 2 ^ (32 * N.of_nat (m - 1 - j))) mod 2 ^ 32) 0%nat))
    by (rewrite map_length, seq_length; lia).
  rewrite (map_nth (fun j => (v / 2 ^ (32 * N.of_nat (m - 1 - j))) mod 2 ^ 32)), seq_nth by lia.
  cbn [Nat.add].
  rewrite nth_skipn.
  assert (Hlt : nth (length out - m + i) out 0 < 2 ^ 32) by (apply Hw, nth_In; lia).
  apply N.bits_inj. intro k. rewrite testbit_mod.
  rewrite <- N.shiftr_div_pow2, testbit_shiftr.
  destruct (N.ltb_spec k 32) as [Hk|Hk]; cbn [andb]; [|apply testbit_lt32; auto].
  rewrite <- Hv, testbit_big_endian by auto.
  set (t := N.of_nat (m - 1 - i)).
  replace ((k + 32 * t) / 32) with t by (apply (N.div_unique _ _ _ k); lia).
  replace ((k + 32 * t) mod 32) with k by (apply (N.mod_unique _ _ t); lia).
  replace (t <? N.of_nat (length out)) with true by (unfold t; lia). cbn [andb].
  replace (length out - 1 - N.to_nat t)%nat with (length out - m + i)%nat by (unfold t; lia).
  reflexivity.
Qed.

Lemma skipn_flat_map m : forall ws, skipn (4 * m) (flat_map le_bytes ws) = flat_map le_bytes (skipn m ws).
Proof.
  induction m; intros [|x ws]; try reflexivity.
  - replace (4 * S m)%nat with (4 + 4 * m)%nat by lia. cbn [skipn flat_map le_bytes app Nat.add]. apply IHm.
Qed.

Lemma rejected_offset P n : rejected_window (offset_of P n) n <-> long_reject P n = true.
Proof.
  unfold rejected_window, long_reject, offset_of.
  set (o := Z.to_N _).
  assert (Ho : exists q, (Z.of_N o + Z.of_N (P + n) = 32 * q)%Z).
  { unfold o. pose proof (Z.div_mod (- Z.of_N (P + n)) 192). 
    pose proof (Z.mod_pos_bound (- Z.of_N (P + n)) 192).
    exists (- 6 * ((- Z.of_N (P + n)) / 192))%Z. lia. }
  destruct Ho as (q & Hq). clearbody o.
  assert (H1 := N.div_mod o 32). assert (H2 := N.div_mod (o + n) 32).
  assert (H3 := N.div_mod P 32). assert (H4 := N.div_mod (P + n) 32).
  assert (M1 := N.mod_lt o 32). assert (M2 := N.mod_lt (o + n) 32).
  assert (M3 := N.mod_lt P 32). assert (M4 := N.mod_lt (P + n) 32).
  rewrite !Bool.andb_true_iff, !N.ltb_lt.
  set (a := o mod 32) in *. set (b := (o + n) mod 32) in *. set (c := P mod 32) in *.
  set (d := (P + n) mod 32) in *.
  set (a' := o / 32) in *. set (b' := (o + n) / 32) in *. set (c' := P / 32) in *.
  set (d' := (P + n) / 32) in *. clearbody a b c d a' b' c' d'.
  assert (A : a + d = 0 \/ a + d = 32).
  { assert (exists t, (Z.of_N (a + d) = 32 * t)%Z) as (t & Ht)
      by (exists (q - Z.of_N a' - Z.of_N d')%Z; lia). lia. }
  assert (B : b + c = 0 \/ b + c = 32).
  { assert (exists t, (Z.of_N (b + c) = 32 * t)%Z) as (t & Ht)
      by (exists (q - Z.of_N b' - Z.of_N c')%Z; lia). lia. }
  lia.
Qed.

Section History.
  Variable g : N -> N.
  Variable w : N.
  Variable u : nat -> N.
  Variable inv : nat -> ustate -> Prop.
  Hypothesis Hstep : forall j s, inv j s ->
    exists s', get_uint_rand g w s = Ok (u j, s') /\ inv (S j) s'.
  Hypothesis Hu : forall j, u j < 2 ^ 32.

  Lemma repeat_zero_words m : repeat 0 (4 * m) = flat_map le_bytes (be_words m 0).
  Proof.
    unfold be_words. assert (H : forall a, flat_map le_bytes
      (map (fun j => (0 / 2 ^ (32 * N.of_nat (m - 1 - j))) mod 2 ^ 32) (seq a m)) = repeat 0 (4 * m)).
    { intro a. rewrite (map_ext _ (fun _ => 0)) by
        (intro; rewrite N.div_0_l by (apply N.pow_nonzero; discriminate); reflexivity).
      revert a. induction m as [|m' IH]; intros a; [reflexivity|].
      replace (4 * S m')%nat with (4 + 4 * m')%nat by lia.
      cbn [seq map flat_map]. rewrite (IH (S a)). reflexivity. }
    symmetry. apply H.
  Qed.

  Lemma run_bits_all reqs : forall P s, binv u inv P s -> (forall r, In r reqs -> good_req r) ->
    results (run_bits g w reqs s) = expected (ubit u) P reqs.
  Proof.
    induction reqs as [|[rsize n] reqs IH]; intros P s Hs Hr; cbn [run_bits expected]; [reflexivity|].
    destruct (Hr _ (or_introl eq_refl)) as (G1 & G2 & G3 & G4). cbn [fst snd] in *.
    assert (G5 : rsize = 4 * (rsize / 4)) by (rewrite (N.div_mod rsize 4) at 1 by discriminate; lia).
    assert (Hr' : forall r, In r reqs -> good_req r) by (intros; apply Hr; right; auto).
    destruct (N.eq_dec n 0) as [->|Hn0].
    - replace (long_reject P 0) with false by reflexivity.
      unfold get_rand_bits at 1. cbn [N.eqb bind]. specialize (IH P s Hs Hr').
      rewrite N.add_0_r, <- IH. unfold results.
      destruct (run_bits g w reqs s) as [[vs s']| | |]; cbn [bind]; try reflexivity.
      f_equal. f_equal. rewrite <- repeat_zero_words. f_equal. lia.
    - destruct (get_rand_bits_step g w u inv Hstep Hu P rsize n s Hs) as [R1 R2]; try lia.
      destruct (long_reject P n) eqn:El.
      + rewrite R1 by (apply rejected_offset; auto). reflexivity.
      + destruct R2 as (out & s' & E & Hl & Hw & Hv & Hi).
        { rewrite rejected_offset, El. discriminate. }
        rewrite E. cbn [bind]. rewrite <- (IH _ s' Hi Hr'). unfold results.
        destruct (run_bits g w reqs s') as [[vs s'']| | |]; cbn [bind]; try reflexivity.
        f_equal. f_equal.
        replace (N.to_nat (24 - rsize)) with (4 * (6 - N.to_nat (rsize / 4)))%nat by lia.
        rewrite skipn_flat_map. f_equal. rewrite <- Hl at 1. apply be_words_eq; auto. lia.
  Qed.
End History.

Lemma binv_reset u (inv : nat -> ustate -> Prop) s : inv 0%nat (mkU 0 0 (-1) (gpos (bu s))) -> binv u inv 0 (reset_bit_buffers s).
Proof. intros H. left. cbn. auto. Qed.

Lemma pieces_ext {A} (f h : N -> N -> A) : (forall p n, f p n = h p n) -> forall reqs p, pieces f p reqs = pieces h p reqs.
Proof. intros E. induction reqs; intros p; cbn; [reflexivity|]. rewrite E, IHreqs. reflexivity. Qed.
Lemma lsb_value_ext b b' p n : (forall i, b i = b' i) -> lsb_value b p n = lsb_value b' p n.
Proof. intros E. apply number_of_bits_ext. auto. Qed.

Lemma run_bits_wide g s reqs : (forall i, g i < 2 ^ 32) -> (forall r, In r reqs -> good_req r) ->
  results (run_bits g 32 reqs (reset_bit_buffers s))
    = expected (stream_lsb (fun i => g (gpos (bu s) + i)) 32) 0 reqs.
Proof.
  intros Hg Hr.
  rewrite (run_bits_all g 32 _ _ (wide_step g Hg (gpos (bu s))) (fun j => Hg _) reqs 0);
    [|apply binv_reset; split; reflexivity|auto].
  assert (E : forall i, ubit (fun j => g (gpos (bu s) + N.of_nat j)) i
              = stream_lsb (fun i => g (gpos (bu s) + i)) 32 i).
  { intro i. unfold ubit, stream_lsb. rewrite N2Nat.id. reflexivity. }
  generalize 0. clear Hr. induction reqs as [|[r n] reqs IH]; intro P; cbn [expected]; [reflexivity|].
  destruct (long_reject P n); [reflexivity|]. rewrite IH.
  rewrite (lsb_value_ext _ _ P _ E). reflexivity.
Qed.

Lemma run_bits_wide32 g s reqs : (forall i, g i < 2 ^ 32) -> (forall n, In n reqs -> n <= 32) ->
  exists s', run_bits g 32 (map (fun n => (4, n)) reqs) (reset_bit_buffers s)
    = Ok (pieces (fun p n => le_bytes (lsb_value
            (stream_lsb (fun i => g (gpos (bu s) + i)) 32) p (N.to_nat n))) 0 reqs, s').
Proof.
  intros Hg Hr.
  destruct (run_bits_short g 32 _ _ (wide_step g Hg (gpos (bu s))) (fun j => Hg _) reqs 0
    (reset_bit_buffers s)) as (s' & E); [apply binv_reset; split; reflexivity|auto|].
  exists s'. rewrite E. f_equal. f_equal. apply pieces_ext. intros p n. f_equal.
  apply lsb_value_ext. intro i. unfold ubit, stream_lsb. rewrite N2Nat.id. reflexivity.
Qed.

Lemma run_bits_narrow g w s reqs : 1 <= w -> w < 32 -> (forall i, g i < 2 ^ w) ->
  (forall r, In r reqs -> good_req r) ->
  results (run_bits g w reqs (reset_bit_buffers s))
    = expected (stream_lsb (fun j => uint_rand_word (fun i => g (gpos (bu s) + i)) w (N.to_nat j)) 32) 0 reqs.
Proof.
  intros H1 H2 Hg Hr.
  rewrite (run_bits_all g w _ _ (narrow_step g w H1 H2 Hg (gpos (bu s))) (u_lt g w _) reqs 0);
    [reflexivity|apply binv_reset; split; reflexivity|auto].
Qed.

(** One- and two-byte results: the wrong end of the word is copied. *)
Lemma run_bits_tiny g s P rsize n u (inv : nat -> ustate -> Prop) w :
  (forall j s, inv j s -> exists s', get_uint_rand g w s = Ok (u j, s') /\ inv (S j) s') ->
  (forall j, u j < 2 ^ 32) -> binv u inv P s -> rsize = 1 \/ rsize = 2 -> n <= rsize * 8 ->
  exists s', get_rand_bits g w rsize n s = Ok (repeat 0 (N.to_nat rsize), s').
Proof.
  intros Hstep Hu Hs Hr Hn. destruct (N.eq_dec n 0) as [->|Hn0]; [eexists; reflexivity|].
  destruct (get_rand_bits_step g w u inv Hstep Hu P rsize n s Hs) as [_ R2]; try lia.
  destruct R2 as (out & s' & E & Hl & Hw & Hv & Hi); [apply short_not_rejected; lia|].
  exists s'. rewrite E. f_equal. f_equal.
  assert (Hlt : lsb_value (ubit u) P (N.to_nat n) < 2 ^ n).
  { pose proof (number_of_bits_lt (fun k => ubit u (P + k)) (N.to_nat n)) as H. rewrite N2Nat.id in H. exact H. }
  assert (H16 : 2 ^ n <= 2 ^ (8 * rsize)) by (apply N.pow_le_mono_r; lia).
  assert (H32 : 2 ^ (8 * rsize) <= 2 ^ 16) by (apply N.pow_le_mono_r; lia).
  set (v := lsb_value _ _ _) in *.
  assert (v < 2 ^ 32) by (eapply N.lt_le_trans; [exact Hlt|]; etransitivity; [exact H16|]; etransitivity; [exact H32|]; discriminate).
  rewrite (single_word g w u inv Hstep Hu out v Hl Hw Hv) by auto.
  rewrite (flat_map_repeat0 g w u inv Hstep Hu).
  change (repeat 0 (4 * 5)) with [0;0;0;0;0;0;0;0;0;0;0;0;0;0;0;0;0;0;0;0].
  destruct Hr as [->| ->]; cbn [N.sub Pos.sub_mask N.to_nat]; unfold le_bytes.
  - assert (v < 2 ^ 8) by (eapply N.lt_le_trans; [exact Hlt|]; exact H16).
    replace (v / 2 ^ 24) with 0 by (symmetry; apply N.div_small; eapply N.lt_trans; [eassumption|reflexivity]).
    reflexivity.
  - assert (v < 2 ^ 16) by (eapply N.lt_le_trans; [exact Hlt|]; exact H16).
    replace (v / 2 ^ 24) with 0 by (symmetry; apply N.div_small; eapply N.lt_trans; [eassumption|reflexivity]).
    replace (v / 2 ^ 16) with 0 by (symmetry; apply N.div_small; eassumption).
    reflexivity.
Qed.
