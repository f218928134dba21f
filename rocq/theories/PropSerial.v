(** Theorems C41, C42: the serial and runs tests of the STS suite. *)
From Verif Require Import BaseLemmas TallyLemmas MissingLemmas BitsSpec SerialModel SerialLemmas.
Open Scope N_scope.

(** ** C41: the serial test counts every cyclic window once *)

(** Missing for the full claim: 2^27 words and more, see below.  The table for
    window length m counts the value of the window that starts at every bit. *)
Theorem C41_frequencies_partial : forall window0 m words, 1 <= m -> m <= 16 ->
  (forall x, In x words -> x < 2 ^ 32) -> N.of_nat (length words) < 2 ^ 27 ->
  exists freq, serial_freq window0 m words = Ok freq /\ length freq = N.to_nat (2 ^ m) /\
    tallies freq (map (fun t => Z.of_N (window_value (cyclic_msb_bit words) (N.of_nat t) (N.to_nat m)))
                      (seq 0 (32 * length words))).
Proof.
  intros window0 m words M1 M16 B L. unfold serial_freq. destruct words as [|first rest].
  { eexists. split; [reflexivity|]. split; [apply repeat_length|]. apply tallies_nil. }
  assert (E : mul32 (N.of_nat (length (first :: rest))) 32 = N.of_nat (32 * length (first :: rest))).
  { unfold mul32. rewrite w32_small; [lia|]. change (2 ^ 32) with (2 ^ 27 * 32). lia. }
  rewrite E, Nat2N.id.
  destruct (iter_inv _ (serial_step m ((first :: rest) ++ [first])) (st_ok m (first :: rest)) (32 * length (first :: rest))
     (0, 0, window0, repeat 0 (N.to_nat (2 ^ m)))) as ([[[t j] window] freq] & F & _ & _ & _ & LF & TF).
  - split; [reflexivity|]. split; [reflexivity|]. split; [intro H; exfalso; apply H; reflexivity|]. split; [apply repeat_length|apply tallies_nil].
  - intros t s Ht S. exact (serial_step_ok m (first :: rest) first rest eq_refl M1 M16 B t s Ht S).
  - exists freq. rewrite F. cbn [bind]. auto.
Qed.
(** With 2^27 words the number of windows wraps to 0 and nothing is counted. *)
Theorem C41_wrap_refuted : exists words, (forall x, In x words -> x < 2 ^ 32) /\ words <> [] /\
  forall window0 m, serial_freq window0 m words = Ok (repeat 0 (N.to_nat (2 ^ m))).
Proof.
  exists (repeat 0 (N.to_nat (2 ^ 27))).
  assert (E : exists k, N.to_nat (2 ^ 27) = S k) by (exists (N.to_nat (2 ^ 27 - 1)); lia).
  assert (W : mul32 (N.of_nat (length (repeat 0 (N.to_nat (2 ^ 27))))) 32 = 0) by (rewrite repeat_length, N2Nat.id; reflexivity).
  destruct E as [k E]. rewrite E in *. cbn [repeat] in *. split; [|split; [discriminate|]].
  - intros x [<-|I]; [reflexivity|]. apply repeat_spec in I. subst. reflexivity.
  - intros window0 m. unfold serial_freq. rewrite W. reflexivity.
Qed.
Example C41_ex : serial_freq 99 3 [0xF0000001] = Ok [25; 1; 0; 1; 1; 0; 1; 3] /\
  window_value (cyclic_msb_bit [0xF0000001]) 31 3 = 7.
Proof. vm_compute. auto. Qed.

(** ** C42: transitions and ones *)

(** The number of positions p below [n] with a property. *)
Definition number_of (f : N -> bool) (n : nat) : N := countp (fun p => f (N.of_nat p)) (seq 0 n).

(** Missing for the full claim: runs of 2^31 bits and more, see below. *)
Theorem C42_runs_partial : forall w words, (1 <= w)%nat -> (w <= 32)%nat -> (forall x, In x words -> x < 2 ^ N.of_nat w) ->
  N.of_nat (w * length words) < 2 ^ 31 ->
  let bit := cyclic_lsb_bit (N.of_nat w) words in
  exists k,
    sts_runs (N.of_nat w) words =
      Ok (number_of (fun p => xorb (bit p) (bit (p + 1))) (w * length words), number_of bit (w * length words), k, k) /\
    number_of (fun p => bit p && negb (bit (p + 1))) (w * length words) = k /\
    number_of (fun p => negb (bit p) && bit (p + 1)) (w * length words) = k.
Proof.
  intros w words W1 W32 B L bit. unfold sts_runs.
  assert (E : mul32 (N.of_nat w) (N.of_nat (length words)) = N.of_nat (w * length words)).
  { unfold mul32. rewrite w32_small; [lia|]. apply (N.lt_trans _ (2 ^ 31)); [|reflexivity]. rewrite <- Nat2N.inj_mul. exact L. }
  rewrite E, Nat2N.id. destruct words as [|x0 rest].
  { exists 0. rewrite Nat.mul_0_r. auto. }
  set (words := x0 :: rest) in *.
  pose proof (runs_loop_ok (N.of_nat w) words ltac:(lia) ltac:(lia) ltac:(cbn; lia) B (w * length words) 0 0 0 0 0 ltac:(lia) eq_refl eq_refl eq_refl eq_refl) as R.
  change (N.of_nat 0) with 0 in R. rewrite R. clear R.
  rewrite (proj2 (N.leb_gt (2 ^ 31) (0 + N.of_nat (w * length words)))) by lia. rewrite andb_false_r. rewrite Nat.add_0_l.
  fold bit. change number_of with positions.
  assert (Z : bit (N.of_nat (w * length words)) = bit 0).
  { unfold bit. rewrite <- (N.add_0_r (N.of_nat (w * length words))). rewrite Nat2N.inj_mul. apply cyclic_period. cbn [length words]. unfold words. cbn [length]. nia. }
  pose proof (positions_shift bit (w * length words)) as S1. rewrite Z in S1.
  pose proof (rises_falls bit (w * length words)) as S2. rewrite Z in S2.
  assert (S1' : positions (fun p => bit (p + 1)) (w * length words) = positions bit (w * length words)) by lia.
  assert (S2' : positions (fun p => negb (bit p) && bit (p + 1)) (w * length words) = positions (fun p => bit p && negb (bit (p + 1))) (w * length words)) by lia.
  rewrite S1', S2'. eexists. split; [reflexivity|]. auto.
Qed.
(** From 2^31 bits on (2^26 words of 32 bits) the int that counts the bits
    overflows, whatever the generator. *)
Theorem C42_overflow_refuted : forall w words, (1 <= w)%nat -> (w <= 32)%nat -> (forall x, In x words -> x < 2 ^ N.of_nat w) ->
  2 ^ 31 <= N.of_nat (w * length words) < 2 ^ 32 -> sts_runs (N.of_nat w) words = UB "signed overflow".
Proof.
  intros w words W1 W32 B [L1 L2]. unfold sts_runs.
  assert (E : mul32 (N.of_nat w) (N.of_nat (length words)) = N.of_nat (w * length words)).
  { unfold mul32. rewrite w32_small; [lia|]. rewrite <- Nat2N.inj_mul. exact L2. }
  rewrite E, Nat2N.id. destruct words as [|x0 rest].
  { exfalso. rewrite Nat.mul_0_r in L1. apply L1. reflexivity. }
  set (words := x0 :: rest) in *.
  pose proof (runs_loop_ok (N.of_nat w) words ltac:(lia) ltac:(lia) ltac:(cbn; lia) B (w * length words) 0 0 0 0 0 ltac:(lia) eq_refl eq_refl eq_refl eq_refl) as R.
  change (N.of_nat 0) with 0 in R. rewrite R. clear R.
  rewrite (proj2 (N.leb_le (2 ^ 31) (0 + N.of_nat (w * length words)))) by lia. reflexivity.
Qed.
Example C42_ex : sts_runs 8 [0xF1; 0x06] = Ok (6, 7, 3, 3) /\
  exists words, (forall x, In x words -> x < 2 ^ N.of_nat 32) /\ 2 ^ 31 <= N.of_nat (32 * length words) < 2 ^ 32.
Proof.
  split; [vm_compute; reflexivity|]. exists (repeat 7 (N.to_nat (2 ^ 26))). split.
  - intros x I. apply repeat_spec in I. subst. reflexivity.
  - rewrite repeat_length, Nat2N.inj_mul, N2Nat.id. split; [intro; discriminate|reflexivity].
Qed.

Print Assumptions C41_frequencies_partial.
Print Assumptions C41_wrap_refuted.
Print Assumptions C42_runs_partial.
Print Assumptions C42_overflow_refuted.
