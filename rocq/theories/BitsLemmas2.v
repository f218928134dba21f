(** Proofs about get_bit_ntuple, the from_uint variants, dumps and bit2uint. *)
From Verif Require Export BitsLemmas.
Open Scope N_scope.

Lemma iter_shiftr1 n x : N.iter n (fun r => N.shiftr r 1) x = N.shiftr x n.
Proof.
  induction n as [|n IH] using N.peano_ind; [rewrite N.shiftr_0_r; auto|].
  rewrite N.iter_succ, IH, N.shiftr_shiftr. f_equal. lia.
Qed.
Lemma w32_idem x : w32 (w32 x) = w32 x.
Proof. unfold w32. rewrite N.mod_mod; auto. discriminate. Qed.
Lemma iter_shiftl1 n x : x < 2 ^ 32 ->
  N.iter n (fun r => w32 (N.shiftl r 1)) x = w32 (N.shiftl x n).
Proof.
  intros Hx. induction n as [|n IH] using N.peano_ind.
  { simpl. rewrite N.shiftl_0_r, w32_small; auto. }
  rewrite N.iter_succ, IH. apply N.bits_inj. intro i.
  rewrite !testbit_w32, !testbit_shiftl, testbit_w32, testbit_shiftl.
  replace (i - 1 - n) with (i - N.succ n) by lia.
  split_cmp; auto; lia.
Qed.

Section GetBitNtuple.
  Variables (rb : N) (words : list N).
  Hypothesis Hrb1 : 1 <= rb.
  Hypothesis Hrb2 : rb <= 32.
  Hypothesis Hlen : (1 <= length words)%nat.
  Hypothesis Hw : forall w, In w words -> w < 2 ^ rb.
  Let L := N.of_nat (length words).
  Let G := cyclic_lsb_bit rb words.

  Lemma cyclic_word q j p : q < L -> j < rb -> p mod (rb * L) = q * rb + j ->
    G p = N.testbit (nth (N.to_nat (L - 1 - q)) words 0) j.
  Proof.
    intros Hq Hj Hp. unfold G, cyclic_lsb_bit. fold L. rewrite Hp.
    replace ((q * rb + j) / rb) with q.
    2:{ rewrite N.add_comm, N.div_add by lia. rewrite N.div_small; lia. }
    replace ((q * rb + j) mod rb) with j.
    2:{ rewrite N.add_comm, N.mod_add by lia. rewrite N.mod_small; lia. }
    f_equal. f_equal. unfold L in *. lia.
  Qed.

  Lemma word_lt n : (n < length words)%nat -> nth n words 0 < 2 ^ rb.
  Proof. intros. apply Hw. apply nth_In. auto. Qed.
  Lemma rb_le32 x : x < 2 ^ rb -> x < 2 ^ 32.
  Proof.
    intros. assert (2 ^ rb <= 2 ^ 32) by (apply N.pow_le_mono_r; lia). lia.
  Qed.

  Lemma mod_next p j q : q < L -> j < rb -> p mod (rb * L) = q * rb ->
    (p + j) mod (rb * L) = q * rb + j.
  Proof.
    intros Hq Hj Hp. assert (0 < L) by lia.
    assert (q * rb + j < rb * L) by nia.
    rewrite <- N.add_mod_idemp_l by lia. rewrite Hp. apply N.mod_small. auto.
  Qed.

  (** state of the carry loop: the next word to add has index q counted from
      the least significant end *)
  Definition carry_inv (b0 : N) (q : N) (ioffset : Z) (result rlen : N) : Prop :=
    q < L /\ (ioffset = (Z.of_N L - Z.of_N q)%Z \/ (q = 0 /\ ioffset = 0%Z)) /\
    (b0 + rlen) mod (rb * L) = q * rb /\
    result < 2 ^ 32 /\
    forall i, N.testbit result i = (i <? 32) && (i <? rlen) && G (b0 + i).

  Lemma carry_loop b0 blen : blen <= 32 -> forall fuel q ioffset result rlen,
    carry_inv b0 q ioffset result rlen ->
    (N.to_nat (blen - rlen) < fuel)%nat -> rlen < 64 ->
    exists r, ntuple_carry fuel rb words L blen ioffset result rlen = Ok r /\
      forall i, i < blen -> N.testbit r i = G (b0 + i).
  Proof.
    intros Hblen. induction fuel as [|fuel IH]; intros q ioffset result rlen Hinv Hfuel Hr; [lia|].
    cbn [ntuple_carry]. destruct (N.ltb_spec rlen blen) as [Hlt|Hge].
    - destruct Hinv as (Hq & Hio & Hmod & Hres & Hbits).
      set (io := if (ioffset - 1 <? 0)%Z then (Z.of_N L - 1)%Z else (ioffset - 1)%Z).
      assert (Eio : io = (Z.of_N L - 1 - Z.of_N q)%Z).
      { unfold io. destruct (Z.ltb_spec (ioffset - 1) 0); destruct Hio as [Hio|[Hq0 Hio]]; lia. }
      assert (Hb1 : (0 <= io)%Z) by lia.
      assert (Hb2 : (Z.to_nat io < length words)%nat) by (unfold L in *; lia).
      rewrite (aget_ok words io 0) by auto. cbn [bind].
      set (w := nth (Z.to_nat io) words 0).
      assert (Hwl : w < 2 ^ rb) by (apply word_lt; auto).
      assert (Hw32 : w < 2 ^ 32) by (apply rb_le32; auto).
      rewrite iter_shiftl1 by auto.
      assert (Ew : forall j, N.testbit w j = (j <? rb) && G (b0 + rlen + j)).
      { intro j. destruct (N.ltb_spec j rb).
        - rewrite (cyclic_word q j) by (auto; apply mod_next; auto).
          unfold w. simpl. f_equal. f_equal. clear - Eio Hq. unfold L in *. clearbody io. lia.
        - simpl. apply (testbit_lt w rb); auto. }
      replace (add32 rlen rb) with (rlen + rb)
        by (unfold add32; rewrite w32_small; [reflexivity|lia]).
      apply (IH (if q + 1 =? L then 0 else q + 1)).
      + assert (Hnext : (b0 + (rlen + rb)) mod (rb * L) = (if q + 1 =? L then 0 else q + 1) * rb).
        { rewrite N.add_assoc. rewrite <- N.add_mod_idemp_l by lia. rewrite Hmod.
          destruct (N.eqb_spec (q + 1) L) as [E|E].
          - replace (q * rb + rb) with (rb * L) by (rewrite <- E; ring).
            rewrite N.mod_same by (clear - Hq Hrb1; nia). reflexivity.
          - rewrite N.mod_small by (clear - E Hq Hrb1; nia). ring. }
        split; [clear - Hq Hio; destruct (N.eqb_spec (q + 1) L); lia|].
        split; [clear - Hq Hio Eio; clearbody io; destruct (N.eqb_spec (q + 1) L); lia|].
        split; [exact Hnext|]. split; [apply w32_lt|].
        intro i. rewrite add32_disjoint; [|auto|apply w32_lt|]; clear Hnext Hmod.
        * rewrite Hbits, testbit_w32, testbit_shiftl, Ew.
          destruct (N.leb_spec rlen i).
          -- replace (b0 + rlen + (i - rlen)) with (b0 + i) by lia.
             split_cmp; auto; lia.
          -- split_cmp; rewrite ?orb_false_r; auto; lia.
        * intro j. rewrite Hbits, testbit_w32, testbit_shiftl.
          split_cmp; rewrite ?andb_false_r; auto; lia.
      + lia.
      + lia.
    - destruct Hinv as (Hq & Hio & Hmod & Hres & Hbits).
      exists result. split; auto. intros i Hi. rewrite Hbits. split_cmp; auto; lia.
  Qed.

  Lemma get_bit_ntuple_spec blen boffset :
    1 <= blen -> blen <= 32 -> boffset < rb * L ->
    get_bit_ntuple rb words L blen boffset
      = Ok (number_of_bits (fun k => G (boffset + k)) (N.to_nat blen)).
  Proof.
    intros Hb1 Hb2 Ho. unfold get_bit_ntuple.
    destruct (N.ltb_spec 32 blen); [lia|]. cbv zeta.
    rewrite (sub32_small blen 1) by lia. rewrite mask_iter by lia.
    replace (blen - 1 + 1) with blen by lia.
    destruct (N.eqb_spec rb 0); [lia|].
    set (q := boffset / rb). set (b := boffset mod rb).
    assert (Hdm : boffset = rb * q + b) by (apply N.div_mod; lia).
    assert (Hb : b < rb) by (apply N.mod_lt; lia).
    assert (Hq : q < L) by nia.
    assert (Hio : (Z.to_nat (Z.of_N L - Z.of_N q - 1) < length words)%nat) by (unfold L in *; lia).
    rewrite (aget_ok words _ 0) by (auto; lia). cbn [bind].
    rewrite iter_shiftr1. rewrite sub32_small by lia.
    set (w := nth (Z.to_nat (Z.of_N L - Z.of_N q - 1)) words 0).
    assert (Hwl : w < 2 ^ rb) by (apply word_lt; auto).
    assert (Hw32 : w < 2 ^ 32) by (apply rb_le32; auto).
    assert (Ew : forall j, N.testbit (N.shiftr w b) j = (j <? rb - b) && G (boffset + j)).
    { intro j. rewrite testbit_shiftr. destruct (N.ltb_spec j (rb - b)).
      - rewrite (cyclic_word q (j + b)).
        + simpl. unfold w. f_equal. f_equal. lia.
        + auto.
        + lia.
        + rewrite N.mod_small by nia. nia.
      - simpl. apply (testbit_lt w rb); auto. lia. }
    assert (Hnext : (boffset + (rb - b)) mod (rb * L) = (if q + 1 =? L then 0 else q + 1) * rb).
    { replace (boffset + (rb - b)) with (rb * (q + 1)) by nia.
      destruct (N.eqb_spec (q + 1) L) as [E|E].
      - rewrite E. rewrite N.mod_same by nia. lia.
      - rewrite N.mod_small by nia. nia. }
    destruct (carry_loop boffset blen Hb2 33 (if q + 1 =? L then 0 else q + 1)
                (Z.of_N L - Z.of_N q - 1)%Z (N.shiftr w b) (rb - b)) as (r & Er & Br).
    - split; [destruct (N.eqb_spec (q + 1) L); lia|].
      split; [destruct (N.eqb_spec (q + 1) L); lia|].
      split; [exact Hnext|].
      split.
      + apply lt_pow2_testbit. intros i Hi. rewrite Ew. split_cmp; auto; lia.
      + intro i. rewrite Ew. split_cmp; auto; lia.
    - lia.
    - lia.
    - rewrite Er. cbn [bind]. f_equal. apply N.bits_inj. intro i.
      rewrite N.land_spec, testbit_ones, testbit_number_of_bits.
      rewrite N2Nat.id. destruct (N.ltb_spec i blen).
      + rewrite Br by auto. simpl. rewrite andb_true_r. auto.
      + rewrite andb_false_r. auto.
  Qed.
End GetBitNtuple.

(** ** Length zero: the mask loop runs 2^32-1 times and nothing is masked. *)
Lemma get_bit_ntuple_zero x : x < 2 ^ 32 -> get_bit_ntuple 32 [x] 1 0 0 = Ok x.
Proof.
  intros Hx. unfold get_bit_ntuple. change (32 <? 0) with false. cbv iota zeta.
  rewrite mask_iter_full by (unfold sub32; vm_compute; discriminate).
  cbn -[N.land N.ones]. rewrite N.land_ones. f_equal. apply N.mod_small. auto.
Qed.

(** ** from_uint variants *)
Lemma wrap_loop_spec rb x nbits boff :
  1 <= rb -> rb <= 32 -> x < 2 ^ rb -> nbits <= 32 -> boff < rb ->
  forall fuel result len,
  (N.to_nat (nbits - len) < fuel)%nat -> len < 64 ->
  (boff + len) mod rb = 0 ->
  (forall i, i < 32 -> i < len -> N.testbit result i = N.testbit x ((boff + i) mod rb)) ->
  (forall i, len <= i -> N.testbit result i = false) ->
  exists r, wrap_loop fuel rb x nbits result len = Ok r /\
    forall i, i < nbits -> N.testbit r i = N.testbit x ((boff + i) mod rb).
Proof.
  intros Hrb1 Hrb2 Hx Hn Hboff. induction fuel as [|fuel IH]; intros result len Hf Hl Hm Hlo Hhi; [lia|].
  cbn [wrap_loop]. destruct (N.ltb_spec len nbits).
  - rewrite shl32_ok by lia. cbn [bind].
    replace (add32 len rb) with (len + rb) by (unfold add32; rewrite w32_small; [auto|lia]).
    assert (Ew : forall i, N.testbit (w32 (N.shiftl x len)) i
        = (i <? 32) && (len <=? i) && N.testbit x (i - len)).
    { intro i. rewrite testbit_w32, testbit_shiftl. rewrite andb_assoc. auto. }
    apply IH; try lia.
    + rewrite N.add_assoc, <- N.add_mod_idemp_l, Hm by lia. rewrite N.add_0_l. apply N.mod_same. lia.
    + intros i Hi1 Hi2. rewrite N.lor_spec, Ew. destruct (N.ltb_spec i len).
      * rewrite Hlo by auto. split_cmp; rewrite ?orb_false_r; auto; lia.
      * rewrite Hhi by auto. split_cmp; auto; try lia.
        replace (boff + i) with (boff + len + (i - len)) by lia.
        rewrite <- N.add_mod_idemp_l, Hm by lia. rewrite N.add_0_l, N.mod_small by lia. auto.
    + intros i Hi. rewrite N.lor_spec, Ew, Hhi by lia.
      rewrite (testbit_lt x rb) by (auto; lia). rewrite andb_false_r. auto.
  - exists result. split; auto. intros i Hi. apply Hlo; lia.
Qed.

Lemma get_bit_ntuple_from_uint_spec rb x nbits boffset :
  1 <= rb -> rb <= 32 -> x < 2 ^ rb -> 1 <= nbits -> nbits <= 32 ->
  get_bit_ntuple_from_uint rb x nbits (N.ones nbits) boffset
    = Ok (number_of_bits (fun k => N.testbit x ((boffset + k) mod rb)) (N.to_nat nbits)).
Proof.
  intros Hrb1 Hrb2 Hx Hn1 Hn2. unfold get_bit_ntuple_from_uint.
  destruct (N.eqb_spec rb 0); [lia|]. cbv zeta. set (b := boffset mod rb).
  assert (Hb : b < rb) by (apply N.mod_lt; lia).
  rewrite shr32_ok by lia. cbn [bind].
  assert (Hg : forall k, (boffset + k) mod rb = (b + k) mod rb).
  { intro k. unfold b. rewrite N.add_mod_idemp_l by lia. auto. }
  replace (add32 b nbits) with (b + nbits) by (unfold add32; rewrite w32_small; [auto|lia]).
  destruct (N.leb_spec (b + nbits) rb).
  - f_equal. apply N.bits_inj. intro i.
    rewrite N.land_spec, testbit_ones, testbit_number_of_bits, testbit_shiftr, N2Nat.id.
    destruct (N.ltb_spec i nbits); [|rewrite andb_false_r; auto].
    rewrite andb_true_r, Hg, N.mod_small by lia. simpl. f_equal. lia.
  - rewrite (sub32_small rb b) by lia.
    destruct (wrap_loop_spec rb x nbits b Hrb1 Hrb2 Hx Hn2 Hb (S (N.to_nat nbits))
                (N.shiftr x b) (rb - b)) as (r & Er & Br); try lia.
    + replace (b + (rb - b)) with rb by lia. apply N.mod_same. lia.
    + intros i Hi1 Hi2. rewrite testbit_shiftr, N.mod_small by lia. f_equal. lia.
    + intros i Hi. rewrite testbit_shiftr. apply (testbit_lt x rb); auto. lia.
    + rewrite Er. cbn [bind]. f_equal. apply N.bits_inj. intro i.
      rewrite N.land_spec, testbit_ones, testbit_number_of_bits, N2Nat.id.
      destruct (N.ltb_spec i nbits); [|rewrite andb_false_r; auto].
      rewrite Br by auto. rewrite andb_true_r, Hg. auto.
Qed.

Lemma get_bit_ntuple_from_whole_uint_spec x nbits boffset :
  x < 2 ^ 32 -> 1 <= nbits -> nbits <= 32 -> boffset < 32 ->
  get_bit_ntuple_from_whole_uint x nbits (N.ones nbits) boffset
    = Ok (number_of_bits (fun k => N.testbit x ((boffset + k) mod 32)) (N.to_nat nbits)).
Proof.
  intros Hx Hn1 Hn2 Hb.
  rewrite <- (get_bit_ntuple_from_uint_spec 32 x nbits boffset) by (auto; lia).
  unfold get_bit_ntuple_from_whole_uint, get_bit_ntuple_from_uint. cbn [N.eqb Pos.eqb].
  rewrite (N.mod_small boffset 32) by auto. reflexivity.
Qed.

(** ** Printing and parsing of binary text *)
Lemma binary_text_length x n : length (binary_text x n) = n.
Proof. induction n; simpl; auto. Qed.

Lemma land_pow2_eqb x m : (N.land (2 ^ m) x =? 0) = negb (N.testbit x m).
Proof.
  destruct (N.testbit x m) eqn:T; simpl.
  - apply N.eqb_neq. intro E. assert (H : N.testbit (N.land (2 ^ m) x) m = false) by (rewrite E; apply N.bits_0).
    rewrite N.land_spec, N.pow2_bits_true, T in H. discriminate.
  - apply N.eqb_eq. apply land0_testbit. intro i. rewrite N.pow2_bits_eqb.
    destruct (N.eqb_spec m i); auto. subst; auto.
Qed.

Lemma dump_loop_spec x n : dump_loop n (2 ^ (N.of_nat n - 1)) x = binary_text x n.
Proof.
  induction n as [|n IH]; [reflexivity|]. cbn [dump_loop binary_text].
  replace (N.of_nat (S n) - 1) with (N.of_nat n) by lia. rewrite land_pow2_eqb. f_equal.
  - destruct (N.testbit x (N.of_nat n)); auto.
  - destruct n as [|m]; [reflexivity|]. rewrite <- IH. f_equal.
    rewrite N.shiftr_div_pow2. replace (N.of_nat (S m)) with (N.succ (N.of_nat m)) by lia.
    rewrite N.pow_succ_r'. change (2 ^ 1) with 2. rewrite N.mul_comm, N.div_mul by discriminate.
    f_equal. lia.
Qed.
Lemma dumpbits_spec x n : 1 <= n -> n <= 32 -> dumpbits x n = Ok (binary_text x (N.to_nat n)).
Proof.
  intros H1 H2. unfold dumpbits. destruct (N.ltb_spec 32 n); [lia|]. cbv zeta.
  destruct (N.eqb_spec n 0); [lia|]. rewrite <- dump_loop_spec. rewrite N2Nat.id. auto.
Qed.
Lemma dumpbitwin_loop_spec x n : (n <= 32)%nat -> dumpbitwin_loop n x = Ok (binary_text x n).
Proof.
  induction n as [|n IH]; intros Hn; [reflexivity|]. cbn [dumpbitwin_loop binary_text].
  rewrite shr32_ok by lia. cbn [bind]. rewrite IH by lia. cbn [bind]. do 2 f_equal.
  change 1 with (N.ones 1). rewrite N.land_ones. change (2 ^ 1) with 2.
  rewrite <- N.bit0_mod, testbit_shiftr, N.add_0_l.
  destruct (N.testbit x (N.of_nat n)); auto.
Qed.

Lemma aget_app_mid {A} (pre : list A) c post :
  aget (pre ++ c :: post) (Z.of_nat (length pre)) = Ok c.
Proof.
  unfold aget. destruct (Z.ltb_spec (Z.of_nat (length pre)) 0); [lia|].
  rewrite Nat2Z.id, nth_error_app2, Nat.sub_diag by auto. reflexivity.
Qed.

Lemma bit2uint_acc acc n (b : bool) : (S n <= 32)%nat ->
  acc * 2 ^ N.of_nat (S n) < 2 ^ 32 -> (acc * 2 + N.b2n b) * 2 ^ N.of_nat n < 2 ^ 32.
Proof.
  intros Hn H.
  assert (E : 2 ^ 32 = 2 ^ (32 - N.of_nat (S n)) * 2 ^ N.of_nat (S n)).
  { rewrite <- N.pow_add_r. f_equal. lia. }
  rewrite E in H |- *.
  assert (Hp : 2 ^ N.of_nat (S n) = 2 * 2 ^ N.of_nat n)
    by (replace (N.of_nat (S n)) with (N.succ (N.of_nat n)) by lia; apply N.pow_succ_r').
  assert (Hnz : 0 < 2 ^ N.of_nat n) by (apply N.neq_0_lt_0, N.pow_nonzero; discriminate).
  rewrite Hp in *. clear E Hp. set (P := 2 ^ N.of_nat n) in *.
  set (c := 2 ^ (32 - N.of_nat (S n))) in *. clearbody P c. clear Hn.
  apply N.mul_lt_mono_pos_r in H; [|lia].
  replace (c * (2 * P)) with (c * 2 * P) by lia.
  apply N.mul_lt_mono_pos_r; [auto|]. destruct b; cbn [N.b2n]; lia.
Qed.

Lemma bit2uint_loop_spec x : forall n pre acc post, (n <= 32)%nat ->
  acc * 2 ^ N.of_nat n < 2 ^ 32 ->
  bit2uint_loop n (Z.of_nat (length pre)) (pre ++ binary_text x n ++ post) acc
    = Ok (acc * 2 ^ N.of_nat n + x mod 2 ^ N.of_nat n).
Proof.
  induction n as [|n IH]; intros pre acc post Hn Hacc.
  - simpl. rewrite N.mod_1_r. f_equal. lia.
  - cbn [bit2uint_loop binary_text].
    assert (Hp : 2 ^ N.of_nat (S n) = 2 * 2 ^ N.of_nat n)
      by (replace (N.of_nat (S n)) with (N.succ (N.of_nat n)) by lia; apply N.pow_succ_r').
    assert (Hnz : 2 ^ N.of_nat n <> 0) by (apply N.pow_nonzero; discriminate).
    cbn [app]. rewrite aget_app_mid. cbn [bind].
    rewrite N.shiftl_mul_pow2. change (2 ^ 1) with 2.
    assert (Hacc1 := bit2uint_acc acc n true Hn Hacc).
    assert (Hacc2 : acc * 2 + 1 < 2 ^ 32).
    { eapply N.le_lt_trans; [|exact Hacc1]. cbn [N.b2n].
      rewrite <- (N.mul_1_r (acc * 2 + 1)) at 1. apply N.mul_le_mono_l. clear - Hnz. lia. }
    clear Hacc1.
    rewrite w32_small by (clear - Hacc2; lia).
    set (b := N.testbit x (N.of_nat n)).
    assert (Hu : u32_of_Z (Z.of_N (acc * 2) + ((if b then 49 else 48) - 48)) = acc * 2 + N.b2n b).
    { clear - Hacc2. rewrite u32_of_Z_small; destruct b; cbn [N.b2n]; lia. }
    rewrite Hu.
    replace (Z.of_nat (length pre) + 1)%Z with (Z.of_nat (length (pre ++ [if b then 49%Z else 48%Z])))
      by (rewrite app_length; simpl; lia).
    replace (pre ++ (if b then 49%Z else 48%Z) :: binary_text x n ++ post)
      with ((pre ++ [if b then 49%Z else 48%Z]) ++ binary_text x n ++ post)
      by (rewrite <- app_assoc; reflexivity).
    assert (Hbit : x mod 2 ^ N.of_nat (S n) = N.b2n b * 2 ^ N.of_nat n + x mod 2 ^ N.of_nat n).
    { rewrite Hp. rewrite (N.mul_comm 2), N.mod_mul_r by (auto; discriminate).
      unfold b. rewrite <- N.bit0_mod, <- N.shiftr_div_pow2, testbit_shiftr, N.add_0_l. lia. }
    rewrite IH.
    + f_equal. rewrite Hbit, Hp. clear. set (P := 2 ^ N.of_nat n). set (m := x mod P). ring.
    + lia.
    + apply bit2uint_acc; auto.
Qed.

Lemma bit2uint_dump x n : 1 <= n -> n <= 32 -> x < 2 ^ n ->
  (do t <- dumpbits x n ;; bit2uint t n) = Ok x /\
  (do t <- dumpbitwin x n ;; bit2uint t n) = Ok x.
Proof.
  intros H1 H2 Hx. assert (E : bit2uint (binary_text x (N.to_nat n)) n = Ok x).
  { unfold bit2uint. pose proof (bit2uint_loop_spec x (N.to_nat n) [] 0 []) as H.
    rewrite app_nil_r, N2Nat.id in H. simpl in H. rewrite H; try lia.
    rewrite N.mod_small by auto. auto. }
  split.
  - rewrite dumpbits_spec by auto. exact E.
  - unfold dumpbitwin. rewrite dumpbitwin_loop_spec by lia. exact E.
Qed.

Lemma b_rotate_edges x : x < 2 ^ 32 ->
  b_rotate_left x 0 = Exit 0 /\ b_rotate_right x 0 = Ok x /\
  (exists why, b_rotate_left x 32 = UB why) /\ (exists why, b_rotate_right x 32 = UB why).
Proof.
  intros Hx. split; [|split; [|split]].
  - unfold b_rotate_left. rewrite b_window_exit; auto. right. left. vm_compute. reflexivity.
  - reflexivity.
  - unfold b_rotate_left. rewrite b_window_ok by (vm_compute; intro; discriminate).
    eexists. reflexivity.
  - unfold b_rotate_right. cbn [N.eqb Pos.eqb].
    rewrite b_window_ok by (vm_compute; intro; discriminate). eexists. reflexivity.
Qed.
