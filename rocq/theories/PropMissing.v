(** Theorems C35, C60, C61, C62, C63, C64: words taken from generator results
    and the tests that count missing words. *)
From Verif Require Import BaseLemmas WordSpec NtupleLemmas MissingModel MissingLemmas MissingLemmas2 MissingLemmas3 MissingLemmas4.
Open Scope N_scope.

(** ** C60: bits taken cyclically out of one word *)
Theorem C60_ntuple_from_uint : forall w x n off, 1 <= w -> w <= 32 -> x < 2 ^ w -> (n <= 32)%nat ->
  get_bit_ntuple_from_uint w x (N.of_nat n) (N.ones (N.of_nat n)) off = Ok (around w x off n).
Proof. exact ntuple_from_uint_ok. Qed.
Theorem C60_ntuple_from_whole_uint : forall x n off, x < 2 ^ 32 -> (n <= 32)%nat -> off < 32 ->
  get_bit_ntuple_from_whole_uint x (N.of_nat n) (N.ones (N.of_nat n)) off = Ok (around 32 x off n).
Proof. exact ntuple_from_whole_uint_ok. Qed.
Example C60_ex : (* bits 9, 10, 11, 0, 1, ... of a 12-bit word, going round twice *)
  get_bit_ntuple_from_uint 12 0x5A3 28 (N.ones 28) 9 = Ok 0xAD1AD1A /\
  get_bit_ntuple_from_whole_uint 0x80000005 8 0xFF 28 = Ok 0x58.
Proof. split; vm_compute; reflexivity. Qed.

(** ** C35: the statistic is the number of words that do not occur *)
Theorem C35_opso : forall g n c, exists m,
  opso_missing g n c = Ok (m, (c + 2 * ((n + 1) / 2))%nat) /\
  m + distinct (map (opso_word g c) (seq 0 n)) = 2 ^ 20.
Proof. exact opso_count. Qed.
Theorem C35_oqso : forall g n c, exists m,
  oqso_missing g n c = Ok (m, (c + 4 * ((n + 5) / 6))%nat) /\
  m + distinct (map (oqso_word g c) (seq 0 n)) = 2 ^ 20.
Proof. exact oqso_count. Qed.

(** DNA and bitstream count in chars: their claim holds when no word occurs 256
    times. *)
Theorem C35_dna : forall g w n c, 1 <= w -> w <= 32 -> (forall i, g i < 2 ^ w) ->
  (forall x, times x (map (dna_word w g (c + 11)) (seq 0 n)) < 256) ->
  exists m, dna_missing g w n c = Ok (m, (c + 11 + 10 * ((n + 31) / 32))%nat) /\
    m + distinct (map (dna_word w g (c + 11)) (seq 0 n)) = 2 ^ 20.
Proof.
  intros g w n c W1 W2 B H. destruct (dna_count g w n c W1 W2 B) as (m & E & D). exists m.
  rewrite seen_all in D by exact H. auto.
Qed.
Theorem C35_bitstream : forall g n c, (forall i, g i < 2 ^ 32) -> N.of_nat n <= 8388640 ->
  (forall x, times x (map (stream_word g c) (seq 0 n)) < 256) ->
  exists m, bitstream_missing g n c = Ok (m, (c + N.to_nat BS_OVERLAP)%nat) /\
    m + distinct (map (stream_word g c) (seq 0 n)) = 2 ^ 20.
Proof.
  intros g n c B N0 H. destruct (bitstream_count g c B n N0) as (m & E & D). exists m.
  rewrite seen_all in D by exact H. auto.
Qed.

(** Concrete words: a counting generator.  Both hypotheses hold for short runs. *)
Definition demo (i : nat) : N := (N.of_nat i * 2654435769 + 12345) mod 2 ^ 32.
Example C35_words_ex :
  map (opso_word demo 0) (seq 0 4) = [58866; 12778; 961892; 991655] /\
  distinct (map (opso_word demo 0) (seq 0 40)) = 40 /\
  distinct (map (oqso_word demo 0) (seq 0 40)) = 38 /\
  (forall x, times x (map (dna_word 32 demo 11) (seq 0 40)) < 256) /\
  map (stream_word demo 0) [0%nat; 1%nat; 24%nat; 25%nat] = [771; 1543; 648058; 247541].
Proof.
  split; [vm_compute; reflexivity|]. split; [vm_compute; reflexivity|]. split; [vm_compute; reflexivity|].
  split; [|vm_compute; reflexivity]. intro x.
  assert (G : forall l, times x l <= N.of_nat (length l)).
  { induction l as [|a l IH]; cbn [times length]; [lia|]. destruct (a =? x); lia. }
  specialize (G (map (dna_word 32 demo 11) (seq 0 40))). rewrite map_length, seq_length in G. lia.
Qed.

(** Without that restriction the claim is false: with the default number of
    samples, 2^21, a generator that returns only zeros shows the word 0 2^21
    times, and DNA and bitstream report all 2^20 words missing. *)
Lemma times_const : forall x (f : nat -> N) l, (forall t, f t = x) -> times x (map f l) = N.of_nat (length l).
Proof.
  intros x f l H. induction l as [|a l IH]; [reflexivity|]. cbn [map times length]. rewrite H, N.eqb_refl, IH. lia.
Qed.
Lemma seen_const : forall x (f : nat -> N) n, (forall t, f t = x) -> N.of_nat n mod 256 = 0 ->
  seen (map f (seq 0 n)) = [].
Proof.
  intros x f n H M. unfold seen.
  assert (G : forall m, filter (fun k => negb (times k (map f (seq 0 n)) mod 256 =? 0)) (map f m) = []).
  { induction m as [|a m IH]; [reflexivity|]. cbn [map filter]. rewrite IH, H, (times_const x) by exact H.
    rewrite seq_length, M. reflexivity. }
  apply G.
Qed.
Lemma number_of_bits_zero : forall f n, (forall k, f k = false) -> number_of_bits f n = 0.
Proof. intros f n H. induction n as [|n IH]; [reflexivity|]. cbn [number_of_bits]. rewrite IH, H. reflexivity. Qed.

Theorem C35_counter_wraps_refuted :
  let g := fun _ : nat => 0 in
  let n := N.to_nat (2 ^ 21) in
  (exists c', dna_missing g 32 n 0 = Ok (2 ^ 20, c')) /\
  (exists c', bitstream_missing g n 0 = Ok (2 ^ 20, c')) /\
  dna_word 32 g 11 0 = 0 /\ stream_word g 0 0 = 0 /\ (0 < n)%nat.
Proof.
  intros g n. assert (L : N.of_nat n = 2097152) by apply N2Nat.id. clearbody n.
  assert (M : N.of_nat n mod 256 = 0) by (rewrite L; reflexivity).
  assert (B : forall i, g i < 2 ^ 32) by (intro i; reflexivity).
  assert (DW : forall t, dna_word 32 g 11 t = 0).
  { intro t. unfold dna_word. cbn [seq map]. unfold around.
    rewrite !number_of_bits_zero by (intro k; apply N.bits_0). reflexivity. }
  assert (SW : forall t, stream_word g 0 t = 0).
  { intro t. unfold stream_word, window_value. apply number_of_bits_zero. intro k. unfold bit_at. apply N.bits_0. }
  split; [|split; [|split; [apply DW|split; [apply SW|lia]]]].
  - destruct (dna_count g 32 n 0 ltac:(lia) ltac:(lia) B) as (m & E & D).
    change (0 + 11)%nat with 11%nat in *. rewrite (seen_const 0 _ n DW M) in D.
    change (distinct []) with 0 in D. rewrite N.add_0_r in D. subst m. eexists. exact E.
  - destruct (bitstream_count g 0 B n ltac:(lia)) as (m & E & D).
    rewrite (seen_const 0 _ n SW M) in D.
    change (distinct []) with 0 in D. rewrite N.add_0_r in D. subst m. eexists. exact E.
Qed.

(** What they compute in general: a word counts as missing when the number of
    its occurrences is a multiple of 256. *)
Theorem C35_dna_exact : forall g w n c, 1 <= w -> w <= 32 -> (forall i, g i < 2 ^ w) -> exists m,
  dna_missing g w n c = Ok (m, (c + 11 + 10 * ((n + 31) / 32))%nat) /\
  let words := map (dna_word w g (c + 11)) (seq 0 n) in
  m + distinct (filter (fun x => negb (times x words mod 256 =? 0)) words) = 2 ^ 20.
Proof. intros g w n c. exact (dna_count g w n c). Qed.
Theorem C35_bitstream_exact : forall g n c, (forall i, g i < 2 ^ 32) -> N.of_nat n <= 8388640 -> exists m,
  bitstream_missing g n c = Ok (m, (c + N.to_nat BS_OVERLAP)%nat) /\
  let words := map (stream_word g c) (seq 0 n) in
  m + distinct (filter (fun x => negb (times x words mod 256 =? 0)) words) = 2 ^ 20.
Proof. intros g n c B H. exact (bitstream_count g c B n H). Qed.

(** ** C61: the words of the occupancy tests overlap *)

(** The documentation asks for overlapping words: the last letters of one word
    are the first letters of the next.  In OPSO, OQSO and DNA they are not. *)
Theorem C61_overlapping_words_refuted : exists g : nat -> N, (forall i, g i < 2 ^ 32) /\
  opso_word g 0 0 mod 2 ^ 10 <> opso_word g 0 1 / 2 ^ 10 /\
  oqso_word g 0 0 mod 2 ^ 15 <> oqso_word g 0 1 / 2 ^ 5 /\
  dna_word 32 g 0 0 mod 2 ^ 18 <> dna_word 32 g 0 1 / 2 ^ 2.
Proof.
  exists demo. split; [intro i; apply N.mod_lt; discriminate|].
  split; [vm_compute; discriminate|]. split; vm_compute; discriminate.
Qed.
(** In the bitstream test they do: each word is the next one shifted. *)
Theorem C61_bitstream_overlaps : forall g c t,
  stream_word g c t mod 2 ^ 19 = stream_word g c (S t) / 2.
Proof.
  intros g c t. apply N.bits_inj. intro i. rewrite testbit_mod.
  replace (stream_word g c (S t) / 2) with (N.shiftr (stream_word g c (S t)) 1)
    by (rewrite N.shiftr_div_pow2; reflexivity). rewrite testbit_shiftr. unfold stream_word, window_value. rewrite !testbit_number_of_bits.
  change (N.of_nat 20) with 20. destruct (N.ltb_spec i 19).
  - replace (i <? 20) with true by lia. replace (i + 1 <? 20) with true by lia. cbn [andb]. f_equal. lia.
  - replace (i + 1 <? 20) with false by lia. reflexivity.
Qed.

(** ** C62: the bitstream test accepts every number of samples *)

(** It reads its fixed buffer beyond the end from 8388641 samples on. *)
Theorem C62_many_samples_refuted : forall g n c, (forall i, g i < 2 ^ 32) -> 8388640 < N.of_nat n ->
  exists why, bitstream_missing g n c = UB why.
Proof. intros g n c B H. exact (bitstream_overrun g c B n H). Qed.
Example C62_ex : 8388640 < N.of_nat (N.to_nat 10000000).
Proof. rewrite N2Nat.id. reflexivity. Qed.

(** ** C63: dab_opso2 *)
Theorem C63_opso2 : forall g n c, exists m1 m2,
  opso2_missing g n c = Ok (m1, m2, (c + 2 * ((n + 1) / 2))%nat) /\
  m1 + distinct (map (opso2_single g c) (seq 0 n)) = 2 ^ 24 /\
  m2 + distinct (map (opso2_pair g c) (seq 0 n)) = 2 ^ 24.
Proof. exact opso2_count. Qed.
Example C63_ex : map (opso2_single demo 0) [0%nat; 1%nat] = [12345; 3647986] /\
  map (opso2_pair demo 0) [0%nat; 1%nat] = [236018; 13178].
Proof. split; vm_compute; reflexivity. Qed.

(** ** C64: the mask table of dab_opso2 *)
Theorem C64_mask_set_up_refuted : exists i why, i < 32 /\ opso2_mask i = UB why.
Proof. exists 31. eexists. split; reflexivity. Qed.

Print Assumptions C60_ntuple_from_uint.
Print Assumptions C60_ntuple_from_whole_uint.
Print Assumptions C35_opso.
Print Assumptions C35_oqso.
Print Assumptions C35_dna.
Print Assumptions C35_bitstream.
Print Assumptions C35_counter_wraps_refuted.
Print Assumptions C35_dna_exact.
Print Assumptions C35_bitstream_exact.
Print Assumptions C61_overlapping_words_refuted.
Print Assumptions C61_bitstream_overlaps.
Print Assumptions C62_many_samples_refuted.
Print Assumptions C63_opso2.
Print Assumptions C64_mask_set_up_refuted.
