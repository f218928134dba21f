(** Properties C04 and C05: cyclic windows of bit strings. *)
From Verif Require Import BitsModel BitsSpec CyclicModel CyclicLemmas.
Open Scope N_scope.

(** C04: windows of at most 32 bits. *)
Theorem C04_get_ntuple_cyclic : forall input offset n jlen,
  (1 <= length input)%nat -> N.of_nat (length input) < 2 ^ 31 ->
  (forall w, In w input -> w < 2 ^ 32) ->
  1 <= n -> n <= 32 -> offset + n < 2 ^ 32 ->
  (1 <= jlen)%nat -> N.of_nat jlen < 2 ^ 31 ->
  get_ntuple_cyclic input (N.of_nat (length input)) (N.of_nat jlen) n offset
    = Ok (repeat 0 (jlen - 1) ++ [window_value (cyclic_msb_bit input) offset (N.to_nat n)]).
Proof. exact get_ntuple_cyclic_short. Qed.
Example C04_ex : (* crosses the end of the array *)
  get_ntuple_cyclic [0x12345678; 0x9ABCDEF0] 2 3 16 56 = Ok [0; 0; 0xF012].
Proof. vm_compute. reflexivity. Qed.

(** C05: the full claim (any window that fits the output is copied) is false. *)
Theorem C05_long_window_refuted : exists input offset n jlen,
  (1 <= length input)%nat /\ (forall w, In w input -> w < 2 ^ 32) /\
  32 < n /\ n <= 32 * N.of_nat jlen /\ offset + n < 2 ^ 32 /\
  get_ntuple_cyclic input (N.of_nat (length input)) (N.of_nat jlen) n offset = Exit 0.
Proof.
  exists [0x12345678; 0x9ABCDEF0; 0x0F1E2D3C], 1, 40, 2%nat.
  split; [apply le_S, le_S, le_n|]. split.
  { intros w H. repeat (destruct H as [<-|H]; [vm_compute; reflexivity|]). destruct H. }
  split; [vm_compute; reflexivity|]. split; [vm_compute; discriminate|].
  split; [vm_compute; reflexivity|]. vm_compute; reflexivity.
Qed.

(** Exactly the windows longer than 32 bits that start inside a word and end
    further right inside a word make the program exit ... *)
Theorem C05_rejected_windows : forall input offset n jlen,
  (1 <= length input)%nat -> N.of_nat (length input) < 2 ^ 31 ->
  (forall w, In w input -> w < 2 ^ 32) ->
  1 <= n -> n <= 32 * N.of_nat jlen -> offset + n < 2 ^ 32 -> N.of_nat jlen < 2 ^ 31 ->
  32 < n -> 0 < offset mod 32 -> offset mod 32 < (offset + n) mod 32 ->
  get_ntuple_cyclic input (N.of_nat (length input)) (N.of_nat jlen) n offset = Exit 0.
Proof.
  intros. apply get_ntuple_cyclic_rejects; auto. unfold rejected_window. auto.
Qed.

(** ... and every other window is copied correctly. *)
Theorem C05_accepted_windows : forall input offset n jlen,
  (1 <= length input)%nat -> N.of_nat (length input) < 2 ^ 31 ->
  (forall w, In w input -> w < 2 ^ 32) ->
  1 <= n -> n <= 32 * N.of_nat jlen -> offset + n < 2 ^ 32 -> N.of_nat jlen < 2 ^ 31 ->
  ~ (32 < n /\ 0 < offset mod 32 /\ offset mod 32 < (offset + n) mod 32) ->
  exists out, get_ntuple_cyclic input (N.of_nat (length input)) (N.of_nat jlen) n offset = Ok out /\
    length out = jlen /\ (forall w, In w out -> w < 2 ^ 32) /\
    big_endian_value out = window_value (cyclic_msb_bit input) offset (N.to_nat n).
Proof. exact get_ntuple_cyclic_long. Qed.
Example C05_ex : (* 72 bits starting at bit 24, wrapping around *)
  get_ntuple_cyclic [0x12345678; 0x9ABCDEF0] 2 3 72 24 = Ok [0x78; 0x9ABCDEF0; 0x12345678].
Proof. vm_compute. reflexivity. Qed.

Print Assumptions C04_get_ntuple_cyclic.
Print Assumptions C05_long_window_refuted.
Print Assumptions C05_rejected_windows.
Print Assumptions C05_accepted_windows.
