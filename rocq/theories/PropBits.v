(** Properties C01, C02, C03, C13: pure bit manipulation. *)
From Verif Require Import BitsModel BitsSpec BitsLemmas BitsLemmas2.
Open Scope N_scope.

(** C01 *)
Theorem C01_umask : forall bstart bstop,
  bstart <= bstop -> bstop <= 31 ->
  exists m, b_umask bstart bstop = Ok m /\ m < 2 ^ 32 /\
    forall k, k < 32 -> msb m k = (bstart <=? k) && (k <=? bstop).
Proof. exact b_umask_spec. Qed.
Example C01_umask_ex : b_umask 4 11 = Ok 0x0FF00000.
Proof. vm_compute. reflexivity. Qed.

Theorem C01_umask_out_of_range : forall bstart bstop,
  bstop < bstart \/ 31 < bstop -> b_umask bstart bstop = Exit 0.
Proof. exact b_umask_exit. Qed.
Example C01_umask_out_of_range_ex : b_umask 5 4 = Exit 0 /\ b_umask 0 32 = Exit 0.
Proof. vm_compute. auto. Qed.

Theorem C01_window : forall input bstart bstop boffset,
  input < 2 ^ 32 -> bstart <= bstop -> bstop <= 31 -> boffset <= 31 ->
  exists r, b_window input bstart bstop boffset = Ok r /\ r < 2 ^ 32 /\
    forall k, k < 32 ->
      msb r k = (boffset <=? k) && (k <=? boffset + (bstop - bstart))
                && msb input (k - boffset + bstart).
Proof. exact b_window_spec. Qed.
Example C01_window_ex : b_window 0x12345678 8 15 24 = Ok 0x34.
Proof. vm_compute. reflexivity. Qed.

Theorem C01_window_out_of_range : forall input bstart bstop boffset,
  bstop < bstart \/ 31 < bstop \/ 31 < boffset ->
  b_window input bstart bstop boffset = Exit 0.
Proof. exact b_window_exit. Qed.
Example C01_window_out_of_range_ex : b_window 0x12345678 8 15 32 = Exit 0.
Proof. vm_compute. reflexivity. Qed.

(** C02 *)
Theorem C02_rotate_left : forall x s, x < 2 ^ 32 -> 1 <= s -> s <= 31 ->
  exists r, b_rotate_left x s = Ok r /\ r < 2 ^ 32 /\
    forall k, k < 32 -> msb r k = msb x ((k + s) mod 32).
Proof. exact b_rotate_left_spec. Qed.
Theorem C02_rotate_right : forall x s, x < 2 ^ 32 -> s <= 31 ->
  exists r, b_rotate_right x s = Ok r /\ r < 2 ^ 32 /\
    forall k, k < 32 -> msb r ((k + s) mod 32) = msb x k.
Proof. exact b_rotate_right_spec. Qed.
Theorem C02_rotations_inverse : forall x s, x < 2 ^ 32 -> 1 <= s -> s <= 31 ->
  (do r <- b_rotate_left x s ;; b_rotate_right r s) = Ok x /\
  (do r <- b_rotate_right x s ;; b_rotate_left r s) = Ok x.
Proof. exact b_rotate_inverse. Qed.
(** Shifts 0 and 32: rotating left by 0 terminates the program, rotating by 32
    is undefined. *)
Theorem C02_rotate_edges : forall x, x < 2 ^ 32 ->
  b_rotate_left x 0 = Exit 0 /\ b_rotate_right x 0 = Ok x /\
  (exists why, b_rotate_left x 32 = UB why) /\ (exists why, b_rotate_right x 32 = UB why).
Proof. exact b_rotate_edges. Qed.
Example C02_rotate_ex :
  b_rotate_left 0x12345678 4 = Ok 0x23456781 /\ b_rotate_right 0x12345678 4 = Ok 0x81234567.
Proof. vm_compute. auto. Qed.

Theorem C02_cycle : forall x n, 1 <= n -> n <= 32 ->
  cycle x n < 2 ^ n /\
  forall k, k < n -> N.testbit (cycle x n) k = N.testbit x ((k + 1) mod n).
Proof. exact cycle_spec. Qed.
Theorem C02_cycle_period : forall x n, 1 <= n -> n <= 32 -> x < 2 ^ n ->
  N.iter n (fun y => cycle y n) x = x.
Proof. exact cycle_n_id. Qed.
Example C02_cycle_ex : cycle 5 4 = 10 /\ cycle 10 4 = 5 /\ cycle 1 32 = 0x80000000.
Proof. vm_compute. auto. Qed.

(** C03 *)
Theorem C03_get_bit_ntuple : forall rmax_bits words,
  1 <= rmax_bits -> rmax_bits <= 32 -> (1 <= length words)%nat ->
  (forall w, In w words -> w < 2 ^ rmax_bits) ->
  forall blen boffset, 1 <= blen -> blen <= 32 ->
  boffset < rmax_bits * N.of_nat (length words) ->
  get_bit_ntuple rmax_bits words (N.of_nat (length words)) blen boffset
    = Ok (number_of_bits (fun k => cyclic_lsb_bit rmax_bits words (boffset + k)) (N.to_nat blen)).
Proof. exact get_bit_ntuple_spec. Qed.
Example C03_get_bit_ntuple_ex :
  get_bit_ntuple 8 [0xAB; 0xCD; 0xEF] 3 12 20 = Ok 0xEFA.
Proof. vm_compute. reflexivity. Qed.
(** A zero-length request is not an empty window: nothing is masked off. *)
Theorem C03_zero_length_refuted : exists x,
  get_bit_ntuple 32 [x] 1 0 0 <> Ok 0.
Proof.
  exists 5. rewrite get_bit_ntuple_zero by reflexivity. discriminate.
Qed.
Theorem C03_from_uint : forall rmax_bits x nbits boffset,
  1 <= rmax_bits -> rmax_bits <= 32 -> x < 2 ^ rmax_bits -> 1 <= nbits -> nbits <= 32 ->
  get_bit_ntuple_from_uint rmax_bits x nbits (N.ones nbits) boffset
    = Ok (number_of_bits (fun k => N.testbit x ((boffset + k) mod rmax_bits)) (N.to_nat nbits)).
Proof. exact get_bit_ntuple_from_uint_spec. Qed.
Example C03_from_uint_ex : get_bit_ntuple_from_uint 12 0xABC 8 0xFF 6 = Ok 0x2A.
Proof. vm_compute. reflexivity. Qed.
Theorem C03_from_whole_uint : forall x nbits boffset,
  x < 2 ^ 32 -> 1 <= nbits -> nbits <= 32 -> boffset < 32 ->
  get_bit_ntuple_from_whole_uint x nbits (N.ones nbits) boffset
    = Ok (number_of_bits (fun k => N.testbit x ((boffset + k) mod 32)) (N.to_nat nbits)).
Proof. exact get_bit_ntuple_from_whole_uint_spec. Qed.
Example C03_from_whole_uint_ex :
  get_bit_ntuple_from_whole_uint 0x12345678 8 0xFF 28 = Ok 0x81.
Proof. vm_compute. reflexivity. Qed.

(** C13 *)
Theorem C13_dumpbits_text : forall x n, 1 <= n -> n <= 32 ->
  dumpbits x n = Ok (binary_text x (N.to_nat n)).
Proof. exact dumpbits_spec. Qed.
Theorem C13_round_trip : forall x n, 1 <= n -> n <= 32 -> x < 2 ^ n ->
  (do t <- dumpbits x n ;; bit2uint t n) = Ok x /\
  (do t <- dumpbitwin x n ;; bit2uint t n) = Ok x.
Proof. exact bit2uint_dump. Qed.
Example C13_ex : dumpbits 5 4 = Ok [48; 49; 48; 49]%Z /\ bit2uint [48; 49; 48; 49]%Z 4 = Ok 5.
Proof. vm_compute. auto. Qed.

Print Assumptions C01_umask.
Print Assumptions C01_window.
Print Assumptions C02_rotations_inverse.
Print Assumptions C02_cycle_period.
Print Assumptions C03_get_bit_ntuple.
Print Assumptions C03_from_uint.
Print Assumptions C13_round_trip.
