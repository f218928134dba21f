(** Properties C06-C12 and C49: the bit-stream routines. *)
From Verif Require Import StreamModel StreamSpec StreamHistorySpec PatternModel StreamLemmas.
Open Scope N_scope.

(** C06: with a 32-bit generator, the i-th call after a reset returns the i-th
    word of the generator. *)
Theorem C06_get_uint_rand_32 : forall g s n,
  (forall i, g i < 2 ^ 32) ->
  exists s', run_uint g 32 n (bu (reset_bit_buffers s))
    = Ok (map (fun j => g (gpos (bu s) + N.of_nat j)) (seq 0 n), s').
Proof. exact (fun g s n H => run_uint_wide g (bu (reset_bit_buffers s)) n H eq_refl). Qed.
Example C06_ex : results (run_uint (fun i => 0xFFFFFF00 + i) 32 3
    (bu (reset_bit_buffers (mkB (mkU 9 9 5 7) [1] 2 2 2)))) = Ok [0xFFFFFF07; 0xFFFFFF08; 0xFFFFFF09].
Proof. vm_compute. reflexivity. Qed.

(** C07: for narrower generators the claim "the returned words are the bit
    stream of the generator" is false: with 31-bit words the 32nd call is
    wrong. *)
Theorem C07_narrow_generators_refuted : exists g w s n ws,
  1 <= w /\ w < 32 /\ (forall i, g i < 2 ^ w) /\
  results (run_uint g w n (bu (reset_bit_buffers s))) = Ok ws /\
  ws <> map (fun j => lsb_value (stream_lsb g w) (32 * N.of_nat j) 32) (seq 0 n).
Proof.
  exists (fun i => 1), 31, (mkB (mkU 0 0 (-1) 0) [] 0 0 0), 32%nat.
  eexists. split; [discriminate|]. split; [reflexivity|]. split; [intro; reflexivity|].
  split; [vm_compute; reflexivity|]. vm_compute. discriminate.
Qed.

(** What the words really are, for every width, content and number of calls. *)
Theorem C07_actual_words : forall g w s n,
  1 <= w -> w < 32 -> (forall i, g i < 2 ^ w) ->
  exists s', run_uint g w n (bu (reset_bit_buffers s))
    = Ok (map (uint_rand_word (fun i => g (gpos (bu s) + i)) w) (seq 0 n), s').
Proof.
  exact (fun g w s n H1 H2 H3 => run_uint_narrow g w (bu (reset_bit_buffers s)) n H1 H2 H3 eq_refl).
Qed.

(** Every word that does not start exactly at a generator word boundary (except
    the very first) is the right piece of the stream. *)
Theorem C07_clean_words_partial : forall g w s n j,
  1 <= w -> w < 32 -> (forall i, g i < 2 ^ w) -> (j < n)%nat ->
  (32 * N.of_nat j) mod w <> 0 \/ j = 0%nat ->
  exists ws s', run_uint g w n (bu (reset_bit_buffers s)) = Ok (ws, s') /\
    nth j ws 0 = lsb_value (stream_lsb (fun i => g (gpos (bu s) + i)) w) (32 * N.of_nat j) 32.
Proof.
  intros g w s n j H1 H2 H3 Hj Hc.
  destruct (C07_actual_words g w s n H1 H2 H3) as (s' & E).
  eexists. exists s'. split; [exact E|].
  set (f := uint_rand_word _ w).
  rewrite (nth_indep _ 0 (f 0%nat)) by (rewrite map_length, seq_length; exact Hj).
  rewrite map_nth, seq_nth by exact Hj. cbn [Nat.add]. apply uint_rand_word_clean. exact Hc.
Qed.
Example C07_ex : results (run_uint (fun i => 0x123456 + i) 24 4 (bu (reset_bit_buffers (mkB (mkU 0 0 (-1) 0) [] 0 0 0))))
    = Ok [0x57123456; 0x34581234; 0x12345912; 0x5B12345A + 0x12345912 (* should be 0x5B12345A *)].
Proof. vm_compute. reflexivity. Qed.

(** C08: any history of requests of at most 32 bits. *)
Theorem C08_get_rand_bits : forall g s reqs,
  (forall i, g i < 2 ^ 32) -> (forall n, In n reqs -> n <= 32) ->
  exists s', run_bits g 32 (map (fun n => (4, n)) reqs) (reset_bit_buffers s)
    = Ok (pieces (fun p n => le_bytes (lsb_value
            (stream_lsb (fun i => g (gpos (bu s) + i)) 32) p (N.to_nat n))) 0 reqs, s').
Proof. exact run_bits_wide32. Qed.
Example C08_ex : results (run_bits (fun i => 0x12345678 + i) 32 [(4, 12); (4, 0); (4, 32); (4, 7)]
      (reset_bit_buffers (mkB (mkU 0 0 3 0) [] 2 2 2)))
    = Ok [le_bytes 0x678; le_bytes 0; le_bytes 0x67912345; le_bytes 0x45].
Proof. vm_compute. reflexivity. Qed.

(** Longer requests (up to 128 bits) into buffers of whole words: either the
    history contains a refused request, and the program exits there, or every
    request returns its piece of the stream, most significant word first. *)
Theorem C08_all_requests : forall g s reqs,
  (forall i, g i < 2 ^ 32) ->
  (forall r, In r reqs -> fst r mod 4 = 0 /\ fst r <= 24 /\ snd r <= 128 /\ snd r <= fst r * 8) ->
  results (run_bits g 32 reqs (reset_bit_buffers s))
    = expected (stream_lsb (fun i => g (gpos (bu s) + i)) 32) 0 reqs.
Proof. exact run_bits_wide. Qed.
Example C08_all_ex : (* the 40-bit request in the middle of a word ends the program *)
  results (run_bits (fun i => 0x12345678 + i) 32 [(4, 4); (8, 60); (8, 40)]
      (reset_bit_buffers (mkB (mkU 0 0 3 0) [] 2 2 2)))
    = Ok [le_bytes 8; le_bytes 0x01234567 ++ le_bytes 0x91234567; le_bytes 0x7B ++ le_bytes 0x1234567A] /\
  results (run_bits (fun i => 0x12345678 + i) 32 [(4, 4); (8, 40)]
      (reset_bit_buffers (mkB (mkU 0 0 3 0) [] 2 2 2))) = Exit 0.
Proof. split; vm_compute; reflexivity. Qed.

(** The same for generators narrower than 32 bits, on top of the words
    get_uint_rand really delivers (C07). *)
Theorem C08_narrow_generators : forall g w s reqs,
  1 <= w -> w < 32 -> (forall i, g i < 2 ^ w) ->
  (forall r, In r reqs -> fst r mod 4 = 0 /\ fst r <= 24 /\ snd r <= 128 /\ snd r <= fst r * 8) ->
  results (run_bits g w reqs (reset_bit_buffers s))
    = expected (stream_lsb (fun j => uint_rand_word (fun i => g (gpos (bu s) + i)) w (N.to_nat j)) 32) 0 reqs.
Proof. exact run_bits_narrow. Qed.

(** Results of one or two bytes come out as zero whatever the generator does:
    the first request after a reset ... *)
Theorem C08_small_results_are_zero : forall g s rsize n,
  (forall i, g i < 2 ^ 32) -> rsize = 1 \/ rsize = 2 -> n <= rsize * 8 ->
  exists s', get_rand_bits g 32 rsize n (reset_bit_buffers s) = Ok (repeat 0 (N.to_nat rsize), s').
Proof.
  intros g s rsize n Hg Hr Hn.
  apply (run_bits_tiny g _ 0 rsize n _ _ 32 (wide_step g Hg (gpos (bu s))) (fun j => Hg _)); auto.
  apply binv_reset. split; reflexivity.
Qed.
Example C08_small_ex : results (run_bits (fun i => 0xFFFFFFFF) 32 [(1, 8); (2, 16); (4, 16)]
    (reset_bit_buffers (mkB (mkU 0 0 3 0) [] 2 2 2))) = Ok [[0]; [0; 0]; [255; 255; 0; 0]].
Proof. vm_compute. reflexivity. Qed.

(** C09: after a reset, every sequence of calls depends only on what the
    generator delivers from then on. *)
Theorem C09_reset_reproducible : forall g1 g2 w s1 s2 cs,
  (forall i, g1 (gpos (bu s1) + i) = g2 (gpos (bu s2) + i)) ->
  run_calls g1 w cs (reset_bit_buffers s1) = run_calls g2 w cs (reset_bit_buffers s2).
Proof. exact reset_reproducible. Qed.
Example C09_ex :
  run_calls (fun i => i * 0x01010101) 32 [CallBits 4 20; CallUint; CallBits 4 20]
      (reset_bit_buffers (mkB (mkU 7 7 3 5) [1;2;3] 1 2 3))
    = Ok [[5;5;5;0]; [0x0B0B0B0B]; [0x50;0x60;0;0]].
Proof. vm_compute. reflexivity. Qed.

(** C10: get_rand_bits_uint, for requests other than the generator width. *)
Theorem C10_get_rand_bits_uint : forall g w reqs b,
  1 <= w -> w <= 32 -> (forall i, g i < 2 ^ w) ->
  (forall n, In n reqs -> n <= 32 /\ n <> w) ->
  exists s', run_rbu g w reqs (mkR b 0 0)
    = Ok (pieces (fun p n => window_value (stream_msb g w) p (N.to_nat n)) 0 reqs, s').
Proof. exact run_rbu_ok. Qed.
Theorem C10_result_fits : forall g w p n, window_value (stream_msb g w) p n < 2 ^ N.of_nat n.
Proof. exact (fun g w => window_value_lt (stream_msb g w)). Qed.
Example C10_ex : results (run_rbu (fun i => 0xABC + i) 12 [7; 10; 32; 1] (mkR 99 0 0))
    = Ok [0x55; 0x395; 0x7B57D57F; 0].
Proof. vm_compute. reflexivity. Qed.

(** C11: a request for exactly the generator width jumps the queue. *)
Theorem C11_full_width_refuted : exists g w reqs b,
  1 <= w /\ w <= 32 /\ (forall i, g i < 2 ^ w) /\ (forall n, In n reqs -> n <= 32) /\
  results (run_rbu g w reqs (mkR b 0 0))
    <> Ok (pieces (fun p n => window_value (stream_msb g w) p (N.to_nat n)) 0 reqs).
Proof.
  exists (fun i => i mod 16), 32, [8; 32; 8], 0.
  split; [discriminate|]. split; [discriminate|].
  split; [intro i; eapply N.lt_trans; [apply N.mod_lt; discriminate|reflexivity]|].
  split; [intros n H; repeat (destruct H as [<-|H]; [discriminate|]); destruct H|].
  vm_compute. discriminate.
Qed.
(** It is right when nothing is buffered. *)
Theorem C11_full_width_aligned_partial : forall g w b p,
  1 <= w -> w <= 32 ->
  get_rand_bits_uint g w w (N.ones w) (mkR b 0 p) = Ok (g p, mkR b 0 (p + 1)).
Proof.
  intros g w b p H1 H2. unfold get_rand_bits_uint.
  replace (N.ones w =? 0) with false.
  2:{ symmetry. apply N.eqb_neq. rewrite N.ones_equiv.
      assert (2 ^ 1 <= 2 ^ w) by (apply N.pow_le_mono_r; [discriminate|exact H1]). change (2 ^ 1) with 2 in *. lia. }
  cbn [bind]. replace (32 <? w) with false by lia. rewrite N.eqb_refl. reflexivity.
Qed.

(** C12: get_rand_pattern never delivers anything: every acceptable non-empty
    pattern ends the program with exit(0) ... *)
Theorem C12_accepted_patterns_exit : forall rsize p rest,
  (forall x, In x p -> x <> 0%Z /\ (x <= 32)%Z) -> rsize < 2 ^ 29 ->
  0 < asked p -> asked p <= 128 -> asked p <= rsize * 8 ->
  get_rand_pattern rsize (p ++ 0%Z :: rest) = Exit 0.
Proof.
  intros rsize p rest Hp Hr H1 H2 H3.
  rewrite get_rand_pattern_spec by (auto; lia).
  replace (asked p =? 0) with false by lia. replace (128 <? asked p) with false by lia.
  replace (rsize * 8 <? asked p) with false by lia. reflexivity.
Qed.
Example C12_ex : get_rand_pattern 4 [5; -3; 8; 0]%Z = Exit 0 /\ asked [5; -3; 8]%Z = 13.
Proof. split; reflexivity. Qed.
Theorem C12_get_rand_pattern_refuted : exists rsize p,
  asked p <= rsize * 8 /\ asked p <= 32 /\ get_rand_pattern rsize (p ++ [0%Z]) = Exit 0.
Proof. exists 4, [5; -3; 8]%Z. split; [discriminate|]. split; [discriminate|]. reflexivity. Qed.
(** ... and all others return zero bytes. *)
Theorem C12_other_patterns : forall rsize p rest,
  (forall x, In x p -> x <> 0%Z /\ (x <= 32)%Z) -> asked p < 2 ^ 32 -> rsize < 2 ^ 29 ->
  asked p = 0 \/ 128 < asked p \/ rsize * 8 < asked p ->
  get_rand_pattern rsize (p ++ 0%Z :: rest) = Ok (repeat 0 (N.to_nat rsize)).
Proof.
  intros rsize p rest Hp Ha Hr H.
  rewrite get_rand_pattern_spec by auto.
  destruct (N.eqb_spec (asked p) 0); [reflexivity|]. destruct (N.ltb_spec 128 (asked p)); [reflexivity|].
  destruct (N.ltb_spec (rsize * 8) (asked p)); [reflexivity|]. lia.
Qed.

(** C49: the buffer of get_rand_bits_uint is not part of what
    reset_bit_buffers resets, so the next result still depends on the past. *)
Theorem C49_rand_bits_uint_reset_refuted : exists g w s1 s2 n v1 v2 t1 t2,
  bits_left s1 <= w /\ bits_left s2 <= w /\ rpos s1 = rpos s2 /\
  (forall i, g i < 2 ^ w) /\
  get_rand_bits_uint g w n (N.ones n) s1 = Ok (v1, t1) /\
  get_rand_bits_uint g w n (N.ones n) s2 = Ok (v2, t2) /\ v1 <> v2.
Proof.
  exists (fun _ => 0), 32, (mkR 0xFF 8 3), (mkR 0 0 3), 8. do 4 eexists.
  split; [discriminate|]. split; [discriminate|]. split; [reflexivity|].
  split; [reflexivity|]. split; [reflexivity|]. split; [reflexivity|]. discriminate.
Qed.

Print Assumptions C06_get_uint_rand_32.
Print Assumptions C07_narrow_generators_refuted.
Print Assumptions C07_actual_words.
Print Assumptions C07_clean_words_partial.
Print Assumptions C08_get_rand_bits.
Print Assumptions C08_all_requests.
Print Assumptions C08_narrow_generators.
Print Assumptions C08_small_results_are_zero.
Print Assumptions C09_reset_reproducible.
Print Assumptions C10_get_rand_bits_uint.
Print Assumptions C10_result_fits.
Print Assumptions C11_full_width_refuted.
Print Assumptions C11_full_width_aligned_partial.
Print Assumptions C12_accepted_patterns_exit.
Print Assumptions C12_get_rand_pattern_refuted.
Print Assumptions C12_other_patterns.
Print Assumptions C49_rand_bits_uint_reset_refuted.
