From Verif Require Import BaseLemmas PopcountLemmas AesModel AesSpec AesLemmas.
Open Scope N_scope.

Lemma F4 : forall a b c d a' b' c' d' : N, a = a' -> b = b' -> c = c' -> d = d' -> (a, b, c, d) = (a', b', c', d').
Proof. intros; subst; reflexivity. Qed.
Lemma lens : length Te0 = 256%nat /\ length Te1 = 256%nat /\ length Te2 = 256%nat /\ length Te3 = 256%nat /\ length Te4 = 256%nat /\
  length Td0 = 256%nat /\ length Td1 = 256%nat /\ length Td2 = 256%nat /\ length Td3 = 256%nat /\ length Td4 = 256%nat.
Proof. vm_compute. repeat split. Qed.

Lemma mix4_enc : forall a b c d, byte a -> byte b -> byte c -> byte d ->
  mix4 Te0 Te1 Te2 Te3 a b c d = Ok (pack (mix_col 2 3 1 1 (sbox a, sbox b, sbox c, sbox d))).
Proof.
  intros a b c d A B C D. destruct lens as (L0 & L1 & L2 & L3 & _). unfold mix4. rewrite !look_ok by assumption. cbn [bind].
  rewrite Te0_ok, Te1_ok, Te2_ok, Te3_ok by assumption. unfold te. rewrite <- !pack_xor. do 2 f_equal.
  rewrite !sbox_SB by assumption. unfold mix_col, col_xor. rewrite !N.lxor_assoc. reflexivity.
Qed.
Lemma mix4_dec : forall a b c d, byte a -> byte b -> byte c -> byte d ->
  mix4 Td0 Td1 Td2 Td3 a b c d = Ok (pack (mix_col 14 11 13 9 (inv_sbox a, inv_sbox b, inv_sbox c, inv_sbox d))).
Proof.
  intros a b c d A B C D. destruct lens as (_ & _ & _ & _ & _ & L0 & L1 & L2 & L3 & _). unfold mix4. rewrite !look_ok by assumption. cbn [bind].
  rewrite Td0_ok, Td1_ok, Td2_ok, Td3_ok by assumption. unfold td. rewrite <- !pack_xor. do 2 f_equal.
  rewrite !inv_sbox_SI by assumption. unfold mix_col, col_xor. rewrite !N.lxor_assoc. reflexivity.
Qed.
Lemma mask4 : forall a b c d, byte a -> byte b -> byte c -> byte d ->
  N.lxor (N.lxor (N.lxor (N.land (pack (a, a, a, a)) 0xff000000) (N.land (pack (b, b, b, b)) 0x00ff0000)) (N.land (pack (c, c, c, c)) 0x0000ff00)) (N.land (pack (d, d, d, d)) 0x000000ff) = pack (a, b, c, d).
Proof.
  intros. rewrite mask0, mask1, mask2, mask3 by assumption. rewrite <- !pack_xor. unfold col_xor. rewrite !N.lxor_0_r, !N.lxor_0_l. reflexivity.
Qed.
Lemma look4_enc : forall a b c d, byte a -> byte b -> byte c -> byte d -> look4 Te4 a b c d = Ok (pack (sbox a, sbox b, sbox c, sbox d)).
Proof.
  intros a b c d A B C D. destruct lens as (_ & _ & _ & _ & L & _). unfold look4. rewrite !look_ok by assumption. cbn [bind].
  rewrite !Te4_ok by assumption. rewrite mask4 by (apply SB_byte; assumption). rewrite !sbox_SB by assumption. reflexivity.
Qed.
Lemma look4_dec : forall a b c d, byte a -> byte b -> byte c -> byte d -> look4 Td4 a b c d = Ok (pack (inv_sbox a, inv_sbox b, inv_sbox c, inv_sbox d)).
Proof.
  intros a b c d A B C D. destruct lens as (_ & _ & _ & _ & _ & _ & _ & _ & _ & L). unfold look4. rewrite !look_ok by assumption. cbn [bind].
  rewrite !Td4_ok by assumption. rewrite mask4 by (apply SI_byte; assumption). rewrite !inv_sbox_SI by assumption. reflexivity.
Qed.
Lemma inv_mix_word_ok : forall x, bcol x -> inv_mix_word (pack x) = Ok (pack (mix_col 14 11 13 9 x)).
Proof.
  intros x X. unfold inv_mix_word. rewrite pack_b0, pack_b1, pack_b2, pack_b3 by exact X. destruct x as [[[a b] c] d]. destruct X as (A & B & C & D). cbn [fst snd].
  destruct lens as (_ & _ & _ & _ & L & _). rewrite !look_ok by assumption. cbn [bind]. rewrite !Te4_ok by assumption. rewrite !mask3 by (apply SB_byte; assumption).
  assert (P : forall y, pack (0, 0, 0, y) = y) by reflexivity. rewrite !P. rewrite mix4_dec by (apply SB_byte; assumption).
  rewrite <- !sbox_SB, !inv_sbox_sbox by assumption. reflexivity.
Qed.

(** ** Byte-ness is preserved *)
Lemma bcol_sbox : forall x, bcol x -> bcol (col_map sbox x).
Proof. intros [[[a b] c] d] (A & B & C & D). cbn [col_map bcol]. auto using sbox_byte. Qed.
Lemma bstate_round : forall s, bstate s -> bstate (mix_columns (shift_rows (sub_bytes s))).
Proof.
  intros [[[[[[a0 a1] a2] a3] [[[b0 b1] b2] b3]] [[[c0 c1] c2] c3]] [[[d0 d1] d2] d3]] ((A0 & A1 & A2 & A3) & (B0 & B1 & B2 & B3) & (C0 & C1 & C2 & C3) & (D0 & D1 & D2 & D3)).
  unfold sub_bytes, shift_rows, mix_columns, st_map, col_map, bstate.
  split; [|split; [|split]]; apply mix_byte; unfold bcol; auto using sbox_byte.
Qed.
Lemma bstate_inv_round : forall s, bstate s -> bstate (inv_sub_bytes (inv_shift_rows s)).
Proof.
  intros [[[[[[a0 a1] a2] a3] [[[b0 b1] b2] b3]] [[[c0 c1] c2] c3]] [[[d0 d1] d2] d3]] ((A0 & A1 & A2 & A3) & (B0 & B1 & B2 & B3) & (C0 & C1 & C2 & C3) & (D0 & D1 & D2 & D3)).
  unfold inv_sub_bytes, inv_shift_rows, st_map, col_map, bstate, bcol.
  split; [|split; [|split]]; auto using inv_sbox_byte.
Qed.
Lemma bstate_inv_mix : forall s, bstate s -> bstate (inv_mix_columns s).
Proof. intros [[[a b] c] d] (A & B & C & D). unfold inv_mix_columns, st_map, bstate. auto using mix_byte. Qed.

(** ** Rounds *)
Definition holds (rk : list N) (p : Z) (K : state) : Prop :=
  let '(k0, k1, k2, k3) := K in
  aget rk p = Ok (pack k0) /\ aget rk (p + 1) = Ok (pack k1) /\ aget rk (p + 2) = Ok (pack k2) /\ aget rk (p + 3) = Ok (pack k3).
Lemma add_key_ok : forall rk p K s, holds rk p K -> add_key rk p (packs s) = Ok (packs (st_xor s K)).
Proof.
  intros rk p [[[k0 k1] k2] k3] [[[s0 s1] s2] s3] (H0 & H1 & H2 & H3). unfold add_key, packs. rewrite H0, H1, H2, H3. cbn [bind st_xor]. rewrite !pack_xor. reflexivity.
Qed.
Lemma packs_bytes : forall s, bstate s -> let '(s0, s1, s2, s3) := s in
  b0 (pack s0) = fst (fst (fst s0)) /\ b1 (pack s0) = snd (fst (fst s0)) /\ b2 (pack s0) = snd (fst s0) /\ b3 (pack s0) = snd s0 /\
  b0 (pack s1) = fst (fst (fst s1)) /\ b1 (pack s1) = snd (fst (fst s1)) /\ b2 (pack s1) = snd (fst s1) /\ b3 (pack s1) = snd s1 /\
  b0 (pack s2) = fst (fst (fst s2)) /\ b1 (pack s2) = snd (fst (fst s2)) /\ b2 (pack s2) = snd (fst s2) /\ b3 (pack s2) = snd s2 /\
  b0 (pack s3) = fst (fst (fst s3)) /\ b1 (pack s3) = snd (fst (fst s3)) /\ b2 (pack s3) = snd (fst s3) /\ b3 (pack s3) = snd s3.
Proof.
  intros [[[s0 s1] s2] s3] (A & B & C & D). rewrite !pack_b0, !pack_b1, !pack_b2, !pack_b3 by assumption. repeat (split; [reflexivity|]). reflexivity.
Qed.
Lemma enc_round_ok : forall rk p K s, bstate s -> holds rk p K ->
  enc_round rk p (packs s) = Ok (packs (st_xor (mix_columns (shift_rows (sub_bytes s))) K)).
Proof.
  intros rk p K s BS H. rewrite <- (add_key_ok rk p K _ H). clear H. pose proof (packs_bytes s BS) as PB.
  destruct s as [[[[[[a0 a1] a2] a3] [[[c0 c1] c2] c3]] [[[d0 d1] d2] d3]] [[[e0 e1] e2] e3]].
  destruct PB as (P1 & P2 & P3 & P4 & P5 & P6 & P7 & P8 & P9 & P10 & P11 & P12 & P13 & P14 & P15 & P16).
  destruct BS as ((A0 & A1 & A2 & A3) & (B0 & B1 & B2 & B3) & (C0 & C1 & C2 & C3) & (D0 & D1 & D2 & D3)).
  unfold enc_round, packs, sub_bytes, shift_rows, mix_columns, st_map, col_map. rewrite P1, P2, P3, P4, P5, P6, P7, P8, P9, P10, P11, P12, P13, P14, P15, P16. cbn [fst snd].
  rewrite !mix4_enc by assumption. cbn [bind]. reflexivity.
Qed.
Lemma enc_last_ok : forall rk p K s, bstate s -> holds rk p K ->
  enc_last rk p (packs s) = Ok (packs (st_xor (shift_rows (sub_bytes s)) K)).
Proof.
  intros rk p K s BS H. rewrite <- (add_key_ok rk p K _ H). clear H. pose proof (packs_bytes s BS) as PB.
  destruct s as [[[[[[a0 a1] a2] a3] [[[c0 c1] c2] c3]] [[[d0 d1] d2] d3]] [[[e0 e1] e2] e3]].
  destruct PB as (P1 & P2 & P3 & P4 & P5 & P6 & P7 & P8 & P9 & P10 & P11 & P12 & P13 & P14 & P15 & P16).
  destruct BS as ((A0 & A1 & A2 & A3) & (B0 & B1 & B2 & B3) & (C0 & C1 & C2 & C3) & (D0 & D1 & D2 & D3)).
  unfold enc_last, packs, sub_bytes, shift_rows, st_map, col_map. rewrite P1, P2, P3, P4, P5, P6, P7, P8, P9, P10, P11, P12, P13, P14, P15, P16. cbn [fst snd].
  rewrite !look4_enc by assumption. cbn [bind]. reflexivity.
Qed.
Lemma dec_round_ok : forall rk p K s, bstate s -> holds rk p K ->
  dec_round rk p (packs s) = Ok (packs (st_xor (inv_mix_columns (inv_sub_bytes (inv_shift_rows s))) K)).
Proof.
  intros rk p K s BS H. rewrite <- (add_key_ok rk p K _ H). clear H. pose proof (packs_bytes s BS) as PB.
  destruct s as [[[[[[a0 a1] a2] a3] [[[c0 c1] c2] c3]] [[[d0 d1] d2] d3]] [[[e0 e1] e2] e3]].
  destruct PB as (P1 & P2 & P3 & P4 & P5 & P6 & P7 & P8 & P9 & P10 & P11 & P12 & P13 & P14 & P15 & P16).
  destruct BS as ((A0 & A1 & A2 & A3) & (B0 & B1 & B2 & B3) & (C0 & C1 & C2 & C3) & (D0 & D1 & D2 & D3)).
  unfold dec_round, packs, inv_sub_bytes, inv_shift_rows, inv_mix_columns, st_map, col_map. rewrite P1, P2, P3, P4, P5, P6, P7, P8, P9, P10, P11, P12, P13, P14, P15, P16. cbn [fst snd].
  rewrite !mix4_dec by assumption. cbn [bind]. reflexivity.
Qed.
Lemma dec_last_ok : forall rk p K s, bstate s -> holds rk p K ->
  dec_last rk p (packs s) = Ok (packs (st_xor (inv_sub_bytes (inv_shift_rows s)) K)).
Proof.
  intros rk p K s BS H. rewrite <- (add_key_ok rk p K _ H). clear H. pose proof (packs_bytes s BS) as PB.
  destruct s as [[[[[[a0 a1] a2] a3] [[[c0 c1] c2] c3]] [[[d0 d1] d2] d3]] [[[e0 e1] e2] e3]].
  destruct PB as (P1 & P2 & P3 & P4 & P5 & P6 & P7 & P8 & P9 & P10 & P11 & P12 & P13 & P14 & P15 & P16).
  destruct BS as ((A0 & A1 & A2 & A3) & (B0 & B1 & B2 & B3) & (C0 & C1 & C2 & C3) & (D0 & D1 & D2 & D3)).
  unfold dec_last, packs, inv_sub_bytes, inv_shift_rows, st_map, col_map. rewrite P1, P2, P3, P4, P5, P6, P7, P8, P9, P10, P11, P12, P13, P14, P15, P16. cbn [fst snd].
  rewrite !look4_dec by assumption. cbn [bind]. reflexivity.
Qed.

Section Schedule.
Variable W : nat -> col.
Hypothesis WB : forall i, bcol (W i).
Lemma key_bytes : forall r, bstate (round_key W r).
Proof. intro r. unfold round_key, bstate. auto. Qed.
Lemma rounds_bytes : forall n r s, bstate s -> bstate (rounds W r n s).
Proof. induction n; intros r s B; cbn [rounds]; [exact B|]. apply IHn, bstate_xor; [apply bstate_round; exact B|apply key_bytes]. Qed.
Lemma inv_rounds_bytes : forall n s, bstate s -> bstate (inv_rounds W n s).
Proof. induction n; intros s B; cbn [inv_rounds]; [exact B|]. apply IHn, bstate_inv_mix, bstate_xor; [apply bstate_inv_round; exact B|apply key_bytes]. Qed.

Lemma enc_loop_ok : forall rk m f q s, (forall r, (r <= q + 2 * S m)%nat -> holds rk (4 * Z.of_nat r) (round_key W r)) -> (S m <= f)%nat -> bstate s ->
  enc_loop f rk (4 * Z.of_nat q) (Z.of_nat (S m)) (packs s) = Ok (packs (rounds W (S q) (2 * m + 1) s), (4 * Z.of_nat (q + 2 * S m))%Z).
Proof.
  intros rk. induction m as [|m IH]; intros f q s H F B; (destruct f as [|f]; [lia|]); cbn [enc_loop].
  - replace (4 * Z.of_nat q + 4)%Z with (4 * Z.of_nat (S q))%Z by lia. rewrite (enc_round_ok rk _ (round_key W (S q)) s B) by (apply H; lia). cbn [bind].
    change (Z.of_nat 1 - 1 =? 0)%Z with true. cbn iota. cbn [Nat.mul Nat.add rounds]. do 2 f_equal. lia.
  - replace (4 * Z.of_nat q + 4)%Z with (4 * Z.of_nat (S q))%Z by lia. rewrite (enc_round_ok rk _ (round_key W (S q)) s B) by (apply H; lia). cbn [bind].
    replace (Z.of_nat (S (S m)) - 1)%Z with (Z.of_nat (S m)) by lia. replace (Z.of_nat (S m) =? 0)%Z with false by (symmetry; apply Z.eqb_neq; lia).
    replace (4 * Z.of_nat q + 8)%Z with (4 * Z.of_nat (S (S q)))%Z by lia.
    assert (B1 : bstate (st_xor (mix_columns (shift_rows (sub_bytes s))) (round_key W (S q)))) by (apply bstate_xor; [apply bstate_round; exact B|apply key_bytes]).
    rewrite (enc_round_ok rk _ (round_key W (S (S q))) _ B1) by (apply H; lia). cbn [bind].
    rewrite IH; [|intros r R; apply H; lia|lia|apply bstate_xor; [apply bstate_round; exact B1|apply key_bytes]].
    replace (2 * S m + 1)%nat with (S (S (2 * m + 1))) by lia. cbn [rounds]. do 3 f_equal. lia.
Qed.
(** Round keys of the equivalent inverse cipher. *)
Definition dkey (Nr r : nat) : state :=
  if (Nat.eqb r 0 || Nat.eqb r Nr)%bool then round_key W (Nr - r) else inv_mix_columns (round_key W (Nr - r)).
Lemma inv_mix_xor : forall x y, bstate x -> bstate y -> inv_mix_columns (st_xor x y) = st_xor (inv_mix_columns x) (inv_mix_columns y).
Proof. intros [[[a b] c] d] [[[a' b'] c'] d'] (A & B & C & D) (A' & B' & C' & D'). unfold inv_mix_columns, st_map, st_xor. rewrite !mix_xor by assumption. reflexivity. Qed.
Lemma dec_step : forall Nr rk n s, (0 < n)%nat -> (n < Nr)%nat -> bstate s -> holds rk (4 * Z.of_nat (Nr - n)) (dkey Nr (Nr - n)) ->
  dec_round rk (4 * Z.of_nat (Nr - n)) (packs s) = Ok (packs (inv_mix_columns (st_xor (inv_sub_bytes (inv_shift_rows s)) (round_key W n)))).
Proof.
  intros Nr rk n s N0 N1 B H. rewrite (dec_round_ok rk _ _ s B H). rewrite inv_mix_xor by (apply bstate_inv_round || apply key_bytes; exact B).
  unfold dkey. replace (Nat.eqb (Nr - n) 0) with false by (symmetry; apply Nat.eqb_neq; lia). replace (Nat.eqb (Nr - n) Nr) with false by (symmetry; apply Nat.eqb_neq; lia).
  cbn [orb]. replace (Nr - (Nr - n))%nat with n by lia. reflexivity.
Qed.
Lemma dec_loop_ok : forall Nr rk, (forall r, (r <= Nr)%nat -> holds rk (4 * Z.of_nat r) (dkey Nr r)) ->
  forall m f q s, (q + 2 * S m = Nr)%nat -> (S m <= f)%nat -> bstate s ->
  dec_loop f rk (4 * Z.of_nat q) (Z.of_nat (S m)) (packs s) = Ok (packs (inv_rounds W (2 * m + 1) s), (4 * Z.of_nat Nr)%Z).
Proof.
  intros Nr rk H. induction m as [|m IH]; intros f q s Q F B; (destruct f as [|f]; [lia|]); cbn [dec_loop].
  - replace (4 * Z.of_nat q + 4)%Z with (4 * Z.of_nat (Nr - 1))%Z by lia. rewrite dec_step by (try apply H; (assumption || lia)). cbn [bind].
    change (Z.of_nat 1 - 1 =? 0)%Z with true. cbn iota. cbn [Nat.mul Nat.add inv_rounds]. do 2 f_equal. lia.
  - replace (4 * Z.of_nat q + 4)%Z with (4 * Z.of_nat (Nr - (2 * m + 3)))%Z by lia. rewrite dec_step by (try apply H; (assumption || lia)). cbn [bind].
    replace (Z.of_nat (S (S m)) - 1)%Z with (Z.of_nat (S m)) by lia. replace (Z.of_nat (S m) =? 0)%Z with false by (symmetry; apply Z.eqb_neq; lia).
    replace (4 * Z.of_nat q + 8)%Z with (4 * Z.of_nat (Nr - (2 * m + 2)))%Z by lia.
    assert (ST : forall s k, bstate s -> bstate (inv_mix_columns (st_xor (inv_sub_bytes (inv_shift_rows s)) (round_key W k)))).
    { intros. apply bstate_inv_mix, bstate_xor; [apply bstate_inv_round; assumption|apply key_bytes]. }
    rewrite dec_step by (try apply H; (apply ST; assumption) || lia). cbn [bind].
    replace (Nr - (2 * m + 2))%nat with (S (S q)) by lia. rewrite IH; [|lia|lia|auto].
    replace (2 * S m + 1)%nat with (S (S (2 * m + 1))) by lia. cbn [inv_rounds].
    replace (2 * m + 3)%nat with (S (S (2 * m + 1))) by lia. replace (2 * m + 2)%nat with (S (2 * m + 1)) by lia. reflexivity.
Qed.

(** ** The inverse cipher inverts *)
Lemma rounds_last : forall n r s, rounds W r (S n) s = st_xor (mix_columns (shift_rows (sub_bytes (rounds W r n s)))) (round_key W (r + n)).
Proof.
  induction n as [|n IH]; intros r s; [cbn [rounds]; rewrite Nat.add_0_r; reflexivity|].
  change (rounds W r (S (S n)) s) with (rounds W (S r) (S n) (st_xor (mix_columns (shift_rows (sub_bytes s))) (round_key W r))). rewrite IH. cbn [rounds]. do 2 f_equal. lia.
Qed.
Lemma inv_shift_sub : forall s, bstate s -> inv_sub_bytes (inv_shift_rows (shift_rows (sub_bytes s))) = s.
Proof.
  intros [[[[[[a0 a1] a2] a3] [[[b0 b1] b2] b3]] [[[c0 c1] c2] c3]] [[[d0 d1] d2] d3]] ((A0 & A1 & A2 & A3) & (B0 & B1 & B2 & B3) & (C0 & C1 & C2 & C3) & (D0 & D1 & D2 & D3)).
  unfold sub_bytes, shift_rows, inv_shift_rows, inv_sub_bytes, st_map, col_map. rewrite !inv_sbox_sbox by assumption. reflexivity.
Qed.
Lemma inv_mix_mix_st : forall s, bstate s -> inv_mix_columns (mix_columns s) = s.
Proof. intros [[[a b] c] d] (A & B & C & D). unfold inv_mix_columns, mix_columns, st_map. rewrite !inv_mix_mix by assumption. reflexivity. Qed.
Lemma st_xor_cancel : forall x y, st_xor (st_xor x y) y = x.
Proof.
  intros [[[[[[a0 a1] a2] a3] [[[b0 b1] b2] b3]] [[[c0 c1] c2] c3]] [[[d0 d1] d2] d3]] [[[[[[e0 e1] e2] e3] [[[f0 f1] f2] f3]] [[[g0 g1] g2] g3]] [[[h0 h1] h2] h3]].
  unfold st_xor, col_xor. rewrite !N.lxor_assoc, !N.lxor_nilpotent, !N.lxor_0_r. reflexivity.
Qed.
Lemma bstate_shift_sub : forall s, bstate s -> bstate (shift_rows (sub_bytes s)).
Proof.
  intros [[[[[[a0 a1] a2] a3] [[[b0 b1] b2] b3]] [[[c0 c1] c2] c3]] [[[d0 d1] d2] d3]] ((A0 & A1 & A2 & A3) & (B0 & B1 & B2 & B3) & (C0 & C1 & C2 & C3) & (D0 & D1 & D2 & D3)).
  unfold sub_bytes, shift_rows, st_map, col_map, bstate, bcol. split; [|split; [|split]]; auto using sbox_byte.
Qed.
Lemma inv_rounds_ok : forall n s, bstate s -> inv_rounds W n (shift_rows (sub_bytes (rounds W 1 n s))) = shift_rows (sub_bytes s).
Proof.
  induction n as [|n IH]; intros s B; [reflexivity|]. rewrite rounds_last. cbn [inv_rounds].
  assert (BR : bstate (rounds W 1 n s)) by (apply rounds_bytes; exact B).
  rewrite inv_shift_sub by (apply bstate_xor; [apply bstate_round; exact BR|apply key_bytes]).
  change (1 + n)%nat with (S n). rewrite st_xor_cancel, inv_mix_mix_st by (apply bstate_shift_sub; exact BR). apply IH. exact B.
Qed.
Lemma inv_cipher_cipher : forall Nr s, bstate s -> inv_cipher Nr W (cipher Nr W s) = s.
Proof.
  intros Nr s B. unfold inv_cipher, cipher. rewrite st_xor_cancel.
  assert (B0 : bstate (st_xor s (round_key W 0))) by (apply bstate_xor; [exact B|apply key_bytes]).
  rewrite inv_rounds_ok by exact B0. rewrite inv_shift_sub by exact B0. apply st_xor_cancel.
Qed.
Lemma cipher_bytes : forall Nr s, bstate s -> bstate (cipher Nr W s).
Proof.
  intros Nr s B. unfold cipher. apply bstate_xor; [|apply key_bytes]. apply bstate_shift_sub, rounds_bytes, bstate_xor; [exact B|apply key_bytes].
Qed.
Lemma inv_cipher_bytes : forall Nr s, bstate s -> bstate (inv_cipher Nr W s).
Proof.
  intros Nr s B. unfold inv_cipher. apply bstate_xor; [|apply key_bytes]. apply bstate_inv_round, inv_rounds_bytes, bstate_xor; [exact B|apply key_bytes].
Qed.
End Schedule.

(** ** Blocks *)
Lemma getu32_ok : forall l o, (0 <= o)%Z -> (o + 4 <= Z.of_nat (length l))%Z -> (forall x, In x l -> byte x) ->
  let k := Z.to_nat o in getu32 l o = Ok (pack (nth k l 0, nth (k + 1) l 0, nth (k + 2) l 0, nth (k + 3) l 0)).
Proof.
  intros l o O L B k. unfold getu32. rewrite !(aget_ok l _ 0) by lia. cbn [bind].
  replace (Z.to_nat (o + 1)) with (k + 1)%nat by lia. replace (Z.to_nat (o + 2)) with (k + 2)%nat by lia. replace (Z.to_nat (o + 3)) with (k + 3)%nat by lia. fold k.
  assert (NB : forall j, (j < 4)%nat -> byte (nth (k + j) l 0)) by (intros; apply B, nth_In; lia).
  assert (SH : forall x s, byte x -> s <= 24 -> w32 (N.shiftl x s) = N.shiftl x s).
  { intros x s X S24. apply w32_small. rewrite N.shiftl_mul_pow2. unfold byte in X.
    assert (P : 2 ^ s <= 2 ^ 24) by (apply N.pow_le_mono_r; [discriminate|exact S24]). change (2 ^ 8) with 256 in X. change (2 ^ 24) with 16777216 in P. change (2 ^ 32) with 4294967296. nia. }
  rewrite !SH by (lia || (apply NB; lia) || (replace (nth k l 0) with (nth (k + 0) l 0) by (f_equal; lia); apply NB; lia)). reflexivity.
Qed.
Lemma putu32_ok : forall x, bcol x -> putu32 (pack x) = col_list x.
Proof.
  intros x X. unfold putu32. change 256 with (2 ^ 8). rewrite <- !N.land_ones. change (N.ones 8) with 0xff.
  change (N.land (N.shiftr (pack x) 16) 0xff) with (b1 (pack x)). change (N.land (N.shiftr (pack x) 8) 0xff) with (b2 (pack x)). change (N.land (pack x) 0xff) with (b3 (pack x)).
  change (N.shiftr (pack x) 24) with (b0 (pack x)). rewrite pack_b0, pack_b1, pack_b2, pack_b3 by exact X. destruct x as [[[a b] c] d]. cbn [fst snd col_list].
  destruct X as (A & _). rewrite byte_low by exact A. reflexivity.
Qed.
Lemma store_ok : forall s, bstate s -> store (packs s) = state_block s.
Proof. intros [[[a b] c] d] (A & B & C & D). unfold store, packs, state_block. rewrite !putu32_ok by assumption. reflexivity. Qed.
Lemma load_ok : forall l, length l = 16%nat -> (forall x, In x l -> byte x) -> load l = Ok (packs (block_state l)).
Proof. intros l L B. unfold load. rewrite !getu32_ok by (assumption || lia). reflexivity. Qed.
Lemma block_bytes : forall l, length l = 16%nat -> (forall x, In x l -> byte x) -> bstate (block_state l).
Proof. intros l L B. unfold block_state, bstate, bcol. repeat match goal with |- _ /\ _ => split end; apply B, nth_In; lia. Qed.
Lemma block_state_block : forall s, block_state (state_block s) = s.
Proof. intros [[[[[[a0 a1] a2] a3] [[[b0 b1] b2] b3]] [[[c0 c1] c2] c3]] [[[d0 d1] d2] d3]]. reflexivity. Qed.
Lemma state_block_state : forall l, length l = 16%nat -> state_block (block_state l) = l.
Proof. intros l L. do 16 (destruct l as [|? l]; [discriminate|]). destruct l; [reflexivity|discriminate]. Qed.
Lemma state_block_bytes : forall s, bstate s -> length (state_block s) = 16%nat /\ forall x, In x (state_block s) -> byte x.
Proof.
  intros [[[[[[a0 a1] a2] a3] [[[b0 b1] b2] b3]] [[[c0 c1] c2] c3]] [[[d0 d1] d2] d3]] ((A0 & A1 & A2 & A3) & (B0 & B1 & B2 & B3) & (C0 & C1 & C2 & C3) & (D0 & D1 & D2 & D3)).
  split; [reflexivity|]. intros x I. cbn [state_block col_list app In] in I.
  repeat (destruct I as [<-|I]; [assumption|]). destruct I.
Qed.
