(** The bitstream test and dab_opso2. *)
From Verif Require Export MissingLemmas2.
Open Scope N_scope.

Lemma iter_o_app : forall A (f : A -> outcome A) a b s, iter_o (a + b) f s = bind (iter_o a f s) (iter_o b f).
Proof.
  induction a as [|a IH]; intros b s; [reflexivity|]. cbn [Nat.add iter_o]. destruct (f s); cbn [bind]; auto.
Qed.

Lemma spell_one : forall b x, spell b [x] = x.
Proof. intros. unfold spell. cbn [fold_left]. lia. Qed.

Section Generator.
Variable g : nat -> N.
Variable c : nat.
Hypothesis bounded : forall i, g i < 2 ^ 32.
Let h (i : nat) := g (c + i)%nat.
Let bit := bit_at h.
Let W (p : N) := window_value bit p 32.

Lemma testbit_W : forall p i, N.testbit (W p) i = (i <? 32) && bit (p + 31 - i).
Proof.
  intros p i. unfold W, window_value. rewrite testbit_number_of_bits. change (N.of_nat 32) with 32.
  destruct (N.ltb_spec i 32); [|reflexivity]. cbn [andb]. f_equal. lia.
Qed.
Lemma W_lt : forall p, W p < 2 ^ 32.
Proof. intro p. apply (number_of_bits_lt _ 32). Qed.

Lemma W_0 : W 0 = h 0.
Proof.
  apply N.bits_inj. intro i. rewrite testbit_W. destruct (N.ltb_spec i 32) as [L|L]; cbn [andb].
  - unfold bit, bit_at. replace ((0 + 31 - i) / 32) with 0 by (symmetry; apply N.div_small; lia).
    rewrite N.mod_small by lia. change (N.to_nat 0) with 0%nat. f_equal. lia.
  - symmetry. apply testbit_lt32; [apply bounded|exact L].
Qed.

Lemma shift_in : forall p, p mod 8 = 0 ->
  add32 (w32 (N.shiftl (W p) 8)) (N.shiftr (w32 (N.shiftl (h (N.to_nat (p / 32 + 1))) (8 * (p mod 32 / 8)))) 24) = W (p + 8).
Proof.
  intros p H8.
  assert (E : exists k, p mod 32 = 8 * k /\ p mod 32 / 8 = k /\ k <= 3).
  { exists (p mod 32 / 8). pose proof (N.div_mod p 8 ltac:(lia)) as A. pose proof (N.div_mod p 32 ltac:(lia)) as B.
    pose proof (N.mod_lt p 32 ltac:(lia)) as C. pose proof (N.div_mod (p mod 32) 8 ltac:(lia)) as D.
    pose proof (N.mod_lt (p mod 32) 8 ltac:(lia)) as F.
    revert A B C D F. rewrite H8. generalize (p / 8) as q, (p / 32) as r, (p mod 32) as s, (p mod 32 / 8) as u.
    intros q r s u. generalize (s / 8) as v, (s mod 8) as z. intros v z A B C D F.
    split; [|split; [reflexivity|]]; lia. }
  destruct E as (k & E1 & E2 & E3). rewrite E2.
  pose proof (N.div_mod p 32 ltac:(lia)) as P. rewrite E1 in P.
  apply N.bits_inj. intro i.
  assert (Q : forall j, N.testbit (w32 (N.shiftl (W p) 8)) j &&
     N.testbit (N.shiftr (w32 (N.shiftl (h (N.to_nat (p / 32 + 1))) (8 * k))) 24) j = false).
  { intro j. rewrite testbit_shiftr, !testbit_w32, !testbit_shiftl.
    destruct (N.leb_spec 8 j).
    - replace (j + 24 <? 32) with false by lia. rewrite !andb_false_l, andb_false_r. reflexivity.
    - cbn [andb]. rewrite !andb_false_r. reflexivity. }
  unfold add32. rewrite testbit_w32, testbit_add_disjoint by exact Q.
  rewrite testbit_shiftr, !testbit_w32, !testbit_shiftl, !testbit_W.
  destruct (N.ltb_spec i 32) as [L|L]; [|reflexivity]. cbn [andb].
  destruct (N.leb_spec 8 i) as [M|M].
  - replace (i + 24 <? 32) with false by lia. cbn [andb]. rewrite orb_false_r.
    replace (i - 8 <? 32) with true by lia. cbn [andb]. f_equal. lia.
  - replace (i + 24 <? 32) with true by lia. replace (8 * k <=? i + 24) with true by lia. cbn [andb orb].
    unfold bit, bit_at.
    assert (D : (p + 8 + 31 - i) / 32 = p / 32 + 1 /\ (p + 8 + 31 - i) mod 32 = 8 * k + 7 - i).
    { split.
      - symmetry. apply (N.div_unique _ 32 _ (8 * k + 7 - i)); lia.
      - symmetry. apply (N.mod_unique _ 32 (p / 32 + 1)); lia. }
    destruct D as [-> ->]. f_equal. lia.
Qed.

Lemma window20 : forall q b, b < 8 ->
  N.shiftr (w32 (N.shiftl (W q) b)) 12 = window_value bit (q + b) 20.
Proof.
  intros q b Hb. apply N.bits_inj. intro i. unfold window_value.
  rewrite testbit_shiftr, testbit_w32, testbit_shiftl, testbit_W, testbit_number_of_bits.
  change (N.of_nat 20) with 20. destruct (N.ltb_spec i 20) as [L|L].
  - replace (i + 12 <? 32) with true by lia. replace (b <=? i + 12) with true by lia.
    replace (i + 12 - b <? 32) with true by lia. cbn [andb]. f_equal. lia.
  - replace (i + 12 <? 32) with false by lia. reflexivity.
Qed.

Lemma fetch_nth : forall n k i, (i < n)%nat -> nth_error (fetch g n k) i = Some (g (k + i)%nat).
Proof.
  induction n as [|n IH]; intros k i H; [lia|]. destruct i; cbn [fetch nth_error].
  - rewrite Nat.add_0_r. reflexivity.
  - rewrite IH by lia. f_equal. f_equal. lia.
Qed.
Lemma fetch_length : forall n k, length (fetch g n k) = n.
Proof. induction n; intro k; cbn [fetch length]; auto. Qed.

Definition stream_inv (t : nat) (s : wstate) : Prop :=
  w_t s = N.of_nat t /\ w_off s = W (8 * ((N.of_nat t + 7) / 8)) /\
  counted (w_cells s) (map (stream_word g c) (seq 0 t)).

Lemma stream_word_lt : forall t, stream_word g c t < 2 ^ 20.
Proof. intro t. apply (number_of_bits_lt _ 20). Qed.

Lemma stream_word_eq : forall t, stream_word g c t = window_value bit (N.of_nat t + 8) 20.
Proof. reflexivity. Qed.

Lemma stream_round : forall n t s, N.of_nat t / 32 + 1 < N.of_nat n -> stream_inv t s ->
  exists s', bitstream_step (fetch g n c) s = Ok s' /\ stream_inv (S t) s'.
Proof.
  intros n t s Hn (T & O & C). unfold bitstream_step. rewrite T. set (u := N.of_nat t) in *.
  pose proof (N.div_mod u 8 ltac:(lia)) as D8. pose proof (N.mod_lt u 8 ltac:(lia)) as M8.
  assert (K : u mod 32 / 8 <= 3).
  { pose proof (N.mod_lt u 32 ltac:(lia)). apply N.lt_succ_r. apply N.div_lt_upper_bound; lia. }
  assert (A : (if u mod 8 =? 0
     then do ws <- shl32 (w_off s) 8 ;; do x <- aget (fetch g n c) (Z.of_N (u / 32 + 1)) ;;
          do nb <- shl32 x (8 * (u mod 32 / 8)) ;; do nb <- shr32 nb 24 ;; Ok (add32 ws nb)
     else Ok (w_off s)) = Ok (W (8 * (u / 8) + 8))).
  { destruct (N.eqb_spec (u mod 8) 0) as [Z|Z].
    - rewrite shl32_ok by lia. cbn [bind]. unfold aget. replace (Z.of_N (u / 32 + 1) <? 0)%Z with false by lia.
      rewrite fetch_nth by lia. cbn [bind]. rewrite shl32_ok by lia. cbn [bind].
      rewrite shr32_ok by lia. cbn [bind]. f_equal.
      replace (8 * (u / 8) + 8) with (u + 8) by lia. rewrite <- (shift_in u Z).
      f_equal.
      + f_equal. f_equal. rewrite O. f_equal. rewrite D8 at 2. rewrite Z, N.add_0_r.
        replace ((u + 7) / 8) with (u / 8); [reflexivity|]. apply (N.div_unique _ 8 _ 7); lia.
      + f_equal. f_equal. f_equal. unfold h. f_equal. f_equal. rewrite <- Z_N_nat, N2Z.id. reflexivity.
    - f_equal. rewrite O. f_equal. replace ((u + 7) / 8) with (u / 8 + 1); [lia|].
      apply (N.div_unique _ 8 _ (u mod 8 - 1)); lia. }
  rewrite A. cbn [bind]. clear A. rewrite shl32_ok by lia. cbn [bind]. rewrite shr32_ok by lia. cbn [bind].
  rewrite window20 by exact M8. replace (8 * (u / 8) + 8 + u mod 8) with (u + 8) by lia.
  pose proof (stream_word_eq t) as SW. fold u in SW. rewrite <- SW.
  rewrite update_ok by (intros l [<-|[]]; apply stream_word_lt). cbn [bind].
  rewrite (spell_one 20).
  eexists. split; [reflexivity|]. split; [cbn [w_t]; lia|]. split.
  - cbn [w_off]. f_equal. replace (N.of_nat (S t) + 7) with (u + 1 * 8) by lia.
    rewrite N.div_add by lia. lia.
  - cbn [w_cells]. rewrite (seq_snoc t), map_app. cbn [map]. apply counted_put. exact C.
Qed.

Definition stream_start : wstate :=
  {| w_cells := cleared; w_t := 0; w_regs := []; w_off := h 0; w_c := c |}.
Lemma stream_inv_start : stream_inv 0 stream_start.
Proof. split; [reflexivity|]. split; [|apply counted_nil]. cbn [stream_start w_off]. rewrite <- W_0. reflexivity. Qed.

Lemma stream_loop : forall n t, N.of_nat t <= 32 * (N.of_nat n - 1) -> (1 <= n)%nat ->
  exists s, iter_o t (bitstream_step (fetch g n c)) stream_start = Ok s /\ stream_inv t s.
Proof.
  intros n t H Hn. apply iter_inv; [apply stream_inv_start|]. intros k s Hk I. apply stream_round; [|exact I].
  apply N.lt_add_lt_sub_r. apply N.div_lt_upper_bound; lia.
Qed.

Lemma aget_fetch0 : forall n, (1 <= n)%nat -> aget (fetch g n c) 0 = Ok (h 0).
Proof.
  intros n H. unfold aget. change (0 <? 0)%Z with false. change (Z.to_nat 0) with 0%nat.
  rewrite fetch_nth by lia. reflexivity.
Qed.

Lemma bitstream_count : forall t, N.of_nat t <= 8388640 -> exists m,
  bitstream_missing g t c = Ok (m, (c + N.to_nat BS_OVERLAP)%nat) /\
  m + distinct (seen (map (stream_word g c) (seq 0 t))) = 2 ^ 20.
Proof.
  intros t H. unfold bitstream_missing. assert (L : N.of_nat (N.to_nat BS_OVERLAP) = 262146) by apply N2Nat.id.
  revert L. generalize (N.to_nat BS_OVERLAP) as n. intros n L. rewrite aget_fetch0 by lia. cbn [bind].
  destruct (stream_loop n t ltac:(lia) ltac:(lia)) as (s & E & _ & _ & C). unfold stream_start in E. rewrite E. cbn [bind].
  eexists. split; [reflexivity|]. apply counted_holes; [exact C|].
  intros x I. eapply in_words; [|exact I]. apply stream_word_lt.
Qed.

Lemma bitstream_overrun : forall t, 8388640 < N.of_nat t -> exists why, bitstream_missing g t c = UB why.
Proof.
  intros t H. unfold bitstream_missing. assert (L : N.of_nat (N.to_nat BS_OVERLAP) = 262146) by apply N2Nat.id.
  revert L. generalize (N.to_nat BS_OVERLAP) as n. intros n L. rewrite aget_fetch0 by lia. cbn [bind].
  assert (K : exists t0, N.of_nat t0 = 8388640 /\ (t0 < t)%nat).
  { exists (N.to_nat 8388640). rewrite N2Nat.id. split; [reflexivity|]. lia. }
  destruct K as (t0 & K1 & K2). replace t with (t0 + S (t - t0 - 1))%nat by lia. rewrite iter_o_app.
  destruct (stream_loop n t0 ltac:(lia) ltac:(lia)) as (s & E & T & O & _). unfold stream_start in E. rewrite E.
  cbn [bind iter_o]. unfold bitstream_step at 1. rewrite T, K1. change (8388640 mod 8 =? 0) with true.
  cbv iota. rewrite shl32_ok by lia. cbn [bind]. change (Z.of_N (8388640 / 32 + 1)) with 262146%Z.
  unfold aget. change (262146 <? 0)%Z with false. cbv iota.
  assert (N0 : nth_error (fetch g n c) (Z.to_nat 262146) = None).
  { apply nth_error_None. rewrite fetch_length. lia. }
  rewrite N0. cbn [bind]. eauto.
Qed.
End Generator.
