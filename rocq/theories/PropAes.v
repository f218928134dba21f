From Verif Require Import BaseLemmas PopcountLemmas AesModel AesSpec AesLemmas AesLemmas2 AesLemmas3.
Open Scope N_scope.

Definition bytes_of_length (n : nat) (l : list N) : Prop := length l = n /\ forall x, In x l -> x < 256.

(** FIPS 197's key expansion determines every word of the schedule, and the
    recurrence always has a solution. *)
Theorem C31_schedule : forall Nk key, (0 < Nk)%nat ->
  (exists W, KeySchedule Nk key W) /\
  forall W W', KeySchedule Nk key W -> KeySchedule Nk key W' -> forall i, W i = W' i.
Proof.
  intros Nk key NK. split; [exists (sched Nk key); apply sched_ok, NK|].
  intros W W' [A1 A2] [B1 B2] i. induction i as [i IH] using lt_wf_ind.
  destruct (Nat.lt_ge_cases i Nk) as [L|L]; [rewrite A1, B1 by exact L; reflexivity|].
  rewrite A2, B2 by exact L. rewrite (IH (i - Nk)%nat), (IH (i - 1)%nat) by lia. reflexivity.
Qed.
(** The last word of FIPS 197, appendix A.1. *)
Example C31_schedule_ex : sched 4 [0x2b; 0x7e; 0x15; 0x16; 0x28; 0xae; 0xd2; 0xa6; 0xab; 0xf7; 0x15; 0x88; 0x09; 0xcf; 0x4f; 0x3c] 43 = (0xb6, 0x63, 0x0c, 0xa6).
Proof. vm_compute. reflexivity. Qed.

(** Setting up a key of 128, 192 or 256 bits and encrypting a block computes the
    cipher of FIPS 197 on every key and every block. *)
Theorem C31_encrypt : forall Nk key rk pt W, (Nk = 4 \/ Nk = 6 \/ Nk = 8)%nat ->
  bytes_of_length (4 * Nk) key -> bytes_of_length 16 pt -> length rk = (4 * (Nk + 6) + 4)%nat -> KeySchedule Nk key W ->
  exists rk', key_setup_enc rk key (32 * N.of_nat Nk) = Ok ((Nk + 6)%nat, rk') /\
    encrypt rk' (Nk + 6) pt = Ok (state_block (cipher (Nk + 6) W (block_state pt))).
Proof.
  intros Nk key rk pt W NK [KL KB] [PL PB] RL S.
  assert (WB : forall i, bcol (W i)) by (apply (sched_bytes Nk key); (assumption || lia)).
  destruct (key_setup_ok W WB Nk key rk NK S KL KB RL) as (rk' & E & G). exists rk'. split; [exact E|].
  apply encrypt_ok; assumption.
Qed.
Definition fips_key (n : nat) : list N := map N.of_nat (seq 0 n).
Definition fips_plain : list N := map (fun i => 17 * N.of_nat i) (seq 0 16).
Definition run_enc (Nk : nat) : outcome (list N) :=
  do (Nr, rk) <- key_setup_enc (repeat 0 (4 * (Nk + 6) + 4)) (fips_key (4 * Nk)) (32 * N.of_nat Nk) ;; encrypt rk Nr fips_plain.
(** The vectors of FIPS 197, appendix C. *)
Example C31_encrypt_ex :
  run_enc 4 = Ok [0x69; 0xc4; 0xe0; 0xd8; 0x6a; 0x7b; 0x04; 0x30; 0xd8; 0xcd; 0xb7; 0x80; 0x70; 0xb4; 0xc5; 0x5a] /\
  run_enc 6 = Ok [0xdd; 0xa9; 0x7c; 0xa4; 0x86; 0x4c; 0xdf; 0xe0; 0x6e; 0xaf; 0x70; 0xa0; 0xec; 0x0d; 0x71; 0x91] /\
  run_enc 8 = Ok [0x8e; 0xa2; 0xb7; 0xca; 0x51; 0x67; 0x45; 0xbf; 0xea; 0xfc; 0x49; 0x90; 0x4b; 0x49; 0x60; 0x89].
Proof. vm_compute. repeat split; reflexivity. Qed.

(** Likewise for the inverse cipher... *)
Theorem C31_decrypt : forall Nk key rk ct W, (Nk = 4 \/ Nk = 6 \/ Nk = 8)%nat ->
  bytes_of_length (4 * Nk) key -> bytes_of_length 16 ct -> length rk = (4 * (Nk + 6) + 4)%nat -> KeySchedule Nk key W ->
  exists rk', key_setup_dec rk key (32 * N.of_nat Nk) = Ok ((Nk + 6)%nat, rk') /\
    decrypt rk' (Nk + 6) ct = Ok (state_block (inv_cipher (Nk + 6) W (block_state ct))).
Proof.
  intros Nk key rk pt W NK [KL KB] [PL PB] RL S.
  assert (WB : forall i, bcol (W i)) by (apply (sched_bytes Nk key); (assumption || lia)).
  destruct (key_setup_dec_ok W WB Nk key rk NK S KL KB RL) as (rk' & E & G). exists rk'. split; [exact E|].
  apply decrypt_ok; assumption.
Qed.
Example C31_decrypt_ex :
  (do (Nr, rk) <- key_setup_dec (repeat 0 44) (fips_key 16) 128 ;;
   decrypt rk Nr [0x69; 0xc4; 0xe0; 0xd8; 0x6a; 0x7b; 0x04; 0x30; 0xd8; 0xcd; 0xb7; 0x80; 0x70; 0xb4; 0xc5; 0x5a]) = Ok fips_plain.
Proof. vm_compute. reflexivity. Qed.

(** ...so decrypting an encrypted block returns the block. *)
Theorem C31_roundtrip : forall Nk key rk rk' pt, (Nk = 4 \/ Nk = 6 \/ Nk = 8)%nat ->
  bytes_of_length (4 * Nk) key -> bytes_of_length 16 pt -> length rk = (4 * (Nk + 6) + 4)%nat -> length rk' = (4 * (Nk + 6) + 4)%nat ->
  exists ke kd ct, key_setup_enc rk key (32 * N.of_nat Nk) = Ok ((Nk + 6)%nat, ke) /\ key_setup_dec rk' key (32 * N.of_nat Nk) = Ok ((Nk + 6)%nat, kd) /\
    encrypt ke (Nk + 6) pt = Ok ct /\ bytes_of_length 16 ct /\ decrypt kd (Nk + 6) ct = Ok pt.
Proof.
  intros Nk key rk rk' pt NK K P R1 R2. pose proof (sched_ok Nk key ltac:(lia)) as S.
  assert (WB : forall i, bcol (sched Nk key i)) by (apply (sched_bytes Nk key); (assumption || apply K || lia)).
  destruct (C31_encrypt Nk key rk pt _ NK K P R1 S) as (ke & E1 & E2).
  assert (B : bstate (cipher (Nk + 6) (sched Nk key) (block_state pt))) by (apply cipher_bytes; [exact WB|apply block_bytes; apply P]).
  destruct (state_block_bytes _ B) as [L SB].
  destruct (C31_decrypt Nk key rk' _ _ NK K (conj L SB) R2 S) as (kd & E3 & E4).
  exists ke, kd. eexists. split; [exact E1|]. split; [exact E3|]. split; [exact E2|]. split; [split; assumption|].
  rewrite E4. f_equal. rewrite block_state_block, inv_cipher_cipher; [apply state_block_state; apply P|exact WB|apply block_bytes; apply P].
Qed.
Example C31_roundtrip_ex : bytes_of_length 16 fips_plain /\ bytes_of_length 24 (fips_key 24).
Proof.
  split; (split; [reflexivity|]); apply Forall_forall; vm_compute; repeat constructor.
Qed.

(** ** The generator *)
Lemma aes_key_bytes : forall s, bytes_of_length 16 (aes_key s).
Proof. intro s. unfold aes_key. split; [rewrite map_length, seq_length; reflexivity|]. intros x I. apply in_map_iff in I. destruct I as (i & <- & _). apply N.mod_lt. discriminate. Qed.

Section Ofb.
Variables (W : nat -> col) (rk : list N).
Hypothesis WB : forall i, bcol (W i).
Hypothesis G : good W 44 44 rk.
Lemma ofb_bytes : forall n, bstate (ofb_state 10 W n).
Proof. induction n as [|n IH]; cbn [ofb_state]; [apply block_bytes; [reflexivity|intros x I; apply repeat_spec in I; subst x; reflexivity]|apply cipher_bytes; assumption]. Qed.
Definition at_word (n : nat) (st : aes_state) : Prop :=
  a_rk st = rk /\ exists b c, (c <= 4)%nat /\ a_block st = state_block (ofb_state 10 W (S b)) /\ a_pos st = N.of_nat (4 * c) /\ n = (4 * b + c)%nat.
Lemma encrypt_ofb : forall b, encrypt rk 10 (state_block (ofb_state 10 W b)) = Ok (state_block (ofb_state 10 W (S b))).
Proof.
  intro b. destruct (state_block_bytes _ (ofb_bytes b)) as [L B].
  pose proof (encrypt_ok W WB 4 rk (state_block (ofb_state 10 W b)) (or_introl eq_refl) G L B) as E. rewrite block_state_block in E. exact E.
Qed.
Lemma get_ofb : forall n st, at_word n st -> exists st', aes_get st = Ok (ofb_word 10 W n, st') /\ at_word (S n) st'.
Proof.
  intros n st (E1 & b & c & C & E2 & E3 & E4). unfold aes_get.
  assert (N : exists st1 b1 c1, (if 16 <? a_pos st + 4 then do b <- encrypt (a_rk st) 10 (a_block st) ;; Ok {| a_rk := a_rk st; a_block := b; a_pos := 0 |} else Ok st) = Ok st1 /\
     a_rk st1 = rk /\ (c1 < 4)%nat /\ a_block st1 = state_block (ofb_state 10 W (S b1)) /\ a_pos st1 = N.of_nat (4 * c1) /\ n = (4 * b1 + c1)%nat).
  { destruct (N.ltb_spec 16 (a_pos st + 4)) as [H|H].
    - rewrite E1, E2, encrypt_ofb. cbn [bind]. eexists _, (S b), 0%nat. split; [reflexivity|]. cbn [a_rk a_block a_pos]. repeat split; lia.
    - exists st, b, c. split; [reflexivity|]. repeat split; try assumption. lia. }
  clear E1 b c C E2 E3 E4. destruct N as (st1 & b & c & E0 & E1 & C & E2 & E3 & E4). rewrite E0. cbn [bind]. clear E0.
  destruct (state_block_bytes _ (ofb_bytes (S b))) as [L _]. rewrite E2, E3. rewrite !(aget_ok _ _ 0) by lia. cbn [bind].
  eexists. split; [f_equal; f_equal|].
  - unfold ofb_word, le_word. replace (n / 4 + 1)%nat with (S b) by (rewrite (Nat.div_unique n 4 b c); lia). replace (n mod 4)%nat with c by (rewrite (Nat.mod_unique n 4 b c); lia).
    replace (Z.to_nat (Z.of_N (N.of_nat (4 * c)))) with (4 * c)%nat by lia. replace (Z.to_nat (Z.of_N (N.of_nat (4 * c)) + 1)) with (4 * c + 1)%nat by lia.
    replace (Z.to_nat (Z.of_N (N.of_nat (4 * c)) + 2)) with (4 * c + 2)%nat by lia. replace (Z.to_nat (Z.of_N (N.of_nat (4 * c)) + 3)) with (4 * c + 3)%nat by lia. reflexivity.
  - split; [exact E1|]. exists b, (S c). cbn [a_block a_pos]. repeat split; (assumption || lia).
Qed.
Lemma outputs_ofb : forall n m st, at_word m st -> exists st', aes_outputs n st = Ok (map (ofb_word 10 W) (seq m n), st') /\ at_word (m + n) st'.
Proof.
  induction n as [|n IH]; intros m st A; cbn [aes_outputs seq map].
  - exists st. rewrite Nat.add_0_r. auto.
  - destruct (get_ofb m st A) as (st1 & E1 & A1). rewrite E1. cbn [bind]. destruct (IH _ _ A1) as (st2 & E2 & A2). rewrite E2. cbn [bind].
    exists st2. split; [reflexivity|]. replace (m + S n)%nat with (S m + n)%nat by lia. exact A2.
Qed.
Lemma ofb_word_lt : forall n, ofb_word 10 W n < 2 ^ 32.
Proof.
  intro n. unfold ofb_word, le_word. destruct (state_block_bytes _ (ofb_bytes (n / 4 + 1))) as [L B].
  generalize dependent (state_block (ofb_state 10 W (n / 4 + 1))). intros l L B. pose proof (Nat.mod_upper_bound n 4 ltac:(lia)) as M.
  assert (H : forall k, (k < 16)%nat -> nth k l 0 < 256) by (intros k K; apply B, nth_In; lia).
  pose proof (H (4 * (n mod 4))%nat ltac:(lia)). pose proof (H (4 * (n mod 4) + 1)%nat ltac:(lia)). pose proof (H (4 * (n mod 4) + 2)%nat ltac:(lia)). pose proof (H (4 * (n mod 4) + 3)%nat ltac:(lia)).
  change (2 ^ 8) with 256. change (2 ^ 16) with 65536. change (2 ^ 24) with 16777216. change (2 ^ 32) with 4294967296. lia.
Qed.
End Ofb.

(** The generator's outputs are, for every seed, the words of the AES-128
    output-feedback key stream with a zero initial block, low byte first: they
    never exceed the declared maximum 2^32 - 1, no call is undefined, and after
    any number of calls the sequence depends on the seed alone. *)
Theorem C31_ofb : forall seed W n, KeySchedule 4 (aes_key seed) W ->
  exists st st', aes_set seed = Ok st /\ aes_outputs n st = Ok (map (ofb_word 10 W) (seq 0 n), st') /\ forall k, ofb_word 10 W k < 2 ^ 32.
Proof.
  intros seed W n S. destruct (aes_key_bytes seed) as [KL KB].
  assert (WB : forall i, bcol (W i)) by (apply (sched_bytes 4 (aes_key seed)); (assumption || lia)).
  destruct (key_setup_ok W WB 4 (aes_key seed) (repeat 0 44) (or_introl eq_refl) S KL KB eq_refl) as (rk & E & G).
  change (4 + 6)%nat with 10%nat in E. change (4 * 10 + 4)%nat with 44%nat in G. change (32 * N.of_nat 4) with 128 in E.
  assert (E0 : encrypt rk 10 (repeat 0 16) = Ok (state_block (ofb_state 10 W 1))).
  { rewrite <- (encrypt_ofb W rk WB G 0). cbn [ofb_state]. rewrite state_block_state; reflexivity. }
  unfold aes_set. rewrite E. cbn [bind]. rewrite E0. cbn [bind]. eexists.
  destruct (outputs_ofb W rk WB G n 0 {| a_rk := rk; a_block := state_block (ofb_state 10 W 1); a_pos := 0 |}) as (st' & E' & _).
  - split; [reflexivity|]. exists 0%nat, 0%nat. cbn [a_block a_pos]. repeat split; lia.
  - exists st'. split; [reflexivity|]. split; [exact E'|]. apply ofb_word_lt. exact WB.
Qed.
Example C31_ofb_ex : KeySchedule 4 (aes_key 1) (sched 4 (aes_key 1)) /\
  match (do st <- aes_set 1 ;; aes_outputs 5 st) with Ok (l, _) => length l = 5%nat /\ nth 0 l 0 <> nth 4 l 0 | _ => False end.
Proof. split; [apply sched_ok; lia|]. vm_compute. split; [reflexivity|discriminate]. Qed.

(** ** Seeding *)
Lemma mod64_256 : forall y, y mod 2 ^ 64 mod 256 = y mod 256.
Proof. intro y. change 256 with (2 ^ 8). apply N.bits_inj. intro n. destruct (N.lt_ge_cases n 8) as [L|L]; [|rewrite !N.mod_pow2_bits_high by exact L; reflexivity]. rewrite !N.mod_pow2_bits_low by lia. reflexivity. Qed.
Lemma key_byte : forall s i, (i < 16)%nat -> nth i (aes_key s) 0 = (112 + N.of_nat i + N.shiftr s (N.of_nat ((5 * i) mod 26)%nat)) mod 256.
Proof.
  intros s i I. unfold aes_key. set (f := fun i => _). rewrite (nth_indep _ 0 (f 0%nat)) by (rewrite map_length, seq_length; exact I).
  rewrite (map_nth f), seq_nth by exact I. cbn [Nat.add]. unfold f. apply mod64_256.
Qed.
Lemma add_mod_inj : forall c x y, (c + x) mod 256 = (c + y) mod 256 -> x mod 256 = y mod 256.
Proof. intros c x y H. pose proof (N.div_mod (c + x) 256 ltac:(lia)). pose proof (N.div_mod (c + y) 256 ltac:(lia)). pose proof (N.div_mod x 256 ltac:(lia)). pose proof (N.div_mod y 256 ltac:(lia)). pose proof (N.mod_lt x 256 ltac:(lia)). pose proof (N.mod_lt y 256 ltac:(lia)).
  generalize dependent ((c + x) / 256). generalize dependent ((c + y) / 256). generalize dependent (x / 256). generalize dependent (y / 256). generalize dependent (x mod 256). generalize dependent (y mod 256). rewrite H. generalize ((c + y) mod 256). intros. clear H. lia. Qed.

(** Different seeds below 2^33 (so all the seeds the driver can generate or
    accept as a 32-bit number) give different keys... *)
Theorem C74_seed_distinct_partial : forall s s', s < 2 ^ 33 -> s' < 2 ^ 33 -> s <> s' -> aes_key s <> aes_key s'.
Proof.
  intros s s' S S' D E. apply D. apply N.bits_inj. intro n.
  assert (B : forall i, (i < 6)%nat -> forall k, k < 8 -> N.testbit s (5 * N.of_nat i + k) = N.testbit s' (5 * N.of_nat i + k)).
  { intros i I k K. pose proof (key_byte s i ltac:(lia)) as K1. pose proof (key_byte s' i ltac:(lia)) as K2. rewrite E, K2 in K1. clear K2. apply add_mod_inj in K1.
    rewrite Nat.mod_small in K1 by lia. replace (N.of_nat (5 * i)) with (5 * N.of_nat i) in K1 by lia.
    assert (T : N.testbit (N.shiftr s (5 * N.of_nat i) mod 2 ^ 8) k = N.testbit (N.shiftr s' (5 * N.of_nat i) mod 2 ^ 8) k) by (change (2 ^ 8) with 256; rewrite K1; reflexivity).
    rewrite !N.mod_pow2_bits_low, !N.shiftr_spec in T by lia. replace (5 * N.of_nat i + k) with (k + 5 * N.of_nat i) by lia. exact T. }
  destruct (N.lt_ge_cases n 33) as [L|L].
  - destruct (N.lt_ge_cases n 25) as [M|M].
    + replace n with (5 * N.of_nat (N.to_nat (n / 5)) + n mod 5) by (rewrite N2Nat.id; symmetry; apply N.div_mod; lia).
      pose proof (N.mod_lt n 5 ltac:(lia)). pose proof (N.div_lt_upper_bound n 5 5 ltac:(lia) ltac:(lia)). apply B; lia.
    + replace n with (5 * N.of_nat 5 + (n - 25)) by lia. apply B; lia.
  - rewrite <- (N.mod_small s (2 ^ 33)), <- (N.mod_small s' (2 ^ 33)) by assumption. rewrite !N.mod_pow2_bits_high by exact L. reflexivity.
Qed.
Example C74_seed_distinct_partial_ex : aes_key 1 <> aes_key 0x80000001.
Proof. apply C74_seed_distinct_partial; reflexivity || discriminate. Qed.

(** ...but of a 64-bit seed only the low 33 bits matter. *)
Theorem C74_seed_high_refuted : forall s, aes_key s = aes_key (s mod 2 ^ 33).
Proof.
  intros s. unfold aes_key. apply map_ext_in. intros i I. apply in_seq in I. assert (I' : (i < 16)%nat) by lia. clear I.
  assert (K : N.of_nat ((5 * i) mod 26) <= 25) by (pose proof (Nat.mod_upper_bound (5 * i) 26 ltac:(lia)); lia). generalize dependent (N.of_nat ((5 * i) mod 26)). intros k K.
  assert (M : forall x, (112 + N.of_nat i + N.shiftr x k) mod 2 ^ 64 mod 256 = (112 + N.of_nat i + N.shiftr x k mod 256) mod 256).
  { intros x. rewrite N.add_mod_idemp_r by discriminate. apply mod64_256. }
  rewrite !M. do 2 f_equal. change 256 with (2 ^ 8).
  apply N.bits_inj. intro n. destruct (N.lt_ge_cases n 8) as [L|L]; [|rewrite !N.mod_pow2_bits_high by exact L; reflexivity].
  rewrite !N.mod_pow2_bits_low, !N.shiftr_spec by (lia || exact L). rewrite N.mod_pow2_bits_low by lia. reflexivity.
Qed.
Example C74_seed_high_refuted_ex : aes_key (5 + 2 ^ 40) = aes_key 5.
Proof. vm_compute. reflexivity. Qed.

Print Assumptions C31_schedule.
Print Assumptions C31_encrypt.
Print Assumptions C31_decrypt.
Print Assumptions C31_roundtrip.
Print Assumptions C31_ofb.
Print Assumptions C74_seed_distinct_partial.
Print Assumptions C74_seed_high_refuted.
