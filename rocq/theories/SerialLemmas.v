From Verif Require Import BaseLemmas TallyLemmas MissingLemmas BitsSpec BitsLemmas BitsLemmas2 PopcountLemmas SerialModel.
Open Scope N_scope.

Lemma nat_eqb_N : forall a b, (N.of_nat a =? N.of_nat b) = (a =? b)%nat.
Proof. intros. destruct (Nat.eqb_spec a b), (N.eqb_spec (N.of_nat a) (N.of_nat b)); try reflexivity; exfalso; lia. Qed.


(** ** sts_runs *)
(** Numbers of positions in a range with a property. *)
Definition positions (f : N -> bool) (n : nat) : N := countp (fun p => f (N.of_nat p)) (seq 0 n).
Lemma positions_S : forall f n, positions f (S n) = positions f n + (if f (N.of_nat n) then 1 else 0).
Proof. intros. unfold positions. rewrite seq_S, countp_app. cbn [countp plus]. lia. Qed.

(** Cyclic symmetry: as many rises as falls. *)
Lemma rises_falls : forall (f : N -> bool) n,
  positions (fun p => negb (f p) && f (p + 1)) n + (if f 0 then 1 else 0) =
  positions (fun p => f p && negb (f (p + 1))) n + (if f (N.of_nat n) then 1 else 0).
Proof.
  induction n; [reflexivity|]. rewrite !positions_S. replace (N.of_nat (S n)) with (N.of_nat n + 1) by lia.
  destruct (f (N.of_nat n)), (f (N.of_nat n + 1)); cbn [negb andb]; lia.
Qed.
Lemma positions_shift : forall (f : N -> bool) n,
  positions (fun p => f (p + 1)) n + (if f 0 then 1 else 0) = positions f n + (if f (N.of_nat n) then 1 else 0).
Proof.
  induction n; [reflexivity|]. rewrite !positions_S. replace (N.of_nat (S n)) with (N.of_nat n + 1) by lia.
  destruct (f (N.of_nat n)), (f (N.of_nat n + 1)); lia.
Qed.
Lemma positions_ext : forall f g n, (forall p, f p = g p) -> positions f n = positions g n.
Proof. intros f g n H. induction n; [reflexivity|]. rewrite !positions_S, IHn, H. reflexivity. Qed.

Lemma cyclic_period : forall w words p, 0 < w * N.of_nat (length words) ->
  cyclic_lsb_bit w words (w * N.of_nat (length words) + p) = cyclic_lsb_bit w words p.
Proof.
  intros. unfold cyclic_lsb_bit.
  assert (E : (w * N.of_nat (length words) + p) mod (w * N.of_nat (length words)) = p mod (w * N.of_nat (length words))).
  { rewrite N.add_comm. rewrite <- (N.mul_1_l (w * _)) at 1. apply N.mod_add. lia. }
  rewrite E. reflexivity.
Qed.

Section Runs.
Variables (w : N) (words : list N).
Hypothesis w1 : 1 <= w.
Hypothesis w32_ : w <= 32.
Hypothesis nonempty : (1 <= length words)%nat.
Hypothesis narrow : forall x, In x words -> x < 2 ^ w.
Let bit := cyclic_lsb_bit w words.

Lemma runs_loop_ok : forall r b x pones c01 c10, N.of_nat b + N.of_nat r <= w * N.of_nat (length words) ->
  x = positions (fun p => xorb (bit p) (bit (p + 1))) b -> pones = positions (fun p => bit (p + 1)) b ->
  c01 = positions (fun p => bit p && negb (bit (p + 1))) b -> c10 = positions (fun p => negb (bit p) && bit (p + 1)) b ->
  sts_runs_loop r w words (N.of_nat b) x pones c01 c10 =
  if (N.of_nat b <? 2 ^ 31) && (2 ^ 31 <=? N.of_nat b + N.of_nat r) then UB "signed overflow"
  else Ok (positions (fun p => xorb (bit p) (bit (p + 1))) (b + r), positions (fun p => bit (p + 1)) (b + r),
           positions (fun p => bit p && negb (bit (p + 1))) (b + r), positions (fun p => negb (bit p) && bit (p + 1)) (b + r)).
Proof.
  induction r as [|r IH]; intros b x pones c01 c10 L X P C D; cbn [sts_runs_loop].
  - rewrite Nat.add_0_r. subst. destruct (N.ltb_spec (N.of_nat b) (2 ^ 31)), (N.leb_spec (2 ^ 31) (N.of_nat b + N.of_nat 0)); try reflexivity; exfalso; lia.
  - rewrite (get_bit_ntuple_spec w words w1 w32_ nonempty narrow) by lia. cbn [bind].
    change (N.to_nat 2) with 2%nat. cbn [number_of_bits]. rewrite N.add_0_r.
    replace (N.of_nat b + N.of_nat 0) with (N.of_nat b) by lia. change (N.of_nat 1) with 1. change (2 ^ N.of_nat 0) with 1. change (2 ^ 1) with 2.
    fold bit. destruct (N.eqb_spec (N.of_nat b) (2 ^ 31 - 1)) as [E|E].
    + destruct (N.ltb_spec (N.of_nat b) (2 ^ 31)), (N.leb_spec (2 ^ 31) (N.of_nat b + N.of_nat (S r))); try reflexivity; exfalso; lia.
    + replace (N.of_nat b + 1) with (N.of_nat (S b)) by lia.
      assert (Q : (N.of_nat b <? 2 ^ 31) && (2 ^ 31 <=? N.of_nat b + N.of_nat (S r)) = (N.of_nat (S b) <? 2 ^ 31) && (2 ^ 31 <=? N.of_nat (S b) + N.of_nat r)).
      { f_equal; [|f_equal; lia]. destruct (N.ltb_spec (N.of_nat b) (2 ^ 31)), (N.ltb_spec (N.of_nat (S b)) (2 ^ 31)); try reflexivity; exfalso; lia. }
      rewrite Q, <- Nat.add_succ_comm. clear Q.
      assert (X' : x + (if xorb (bit (N.of_nat b)) (bit (N.of_nat b + 1)) then 1 else 0) = positions (fun p => xorb (bit p) (bit (p + 1))) (S b)) by (rewrite positions_S; subst; reflexivity).
      assert (P' : pones + (if bit (N.of_nat b + 1) then 1 else 0) = positions (fun p => bit (p + 1)) (S b)) by (rewrite positions_S; subst; reflexivity).
      assert (C' : c01 + (if bit (N.of_nat b) && negb (bit (N.of_nat b + 1)) then 1 else 0) = positions (fun p => bit p && negb (bit (p + 1))) (S b)) by (rewrite positions_S; subst; reflexivity).
      assert (D' : c10 + (if negb (bit (N.of_nat b)) && bit (N.of_nat b + 1) then 1 else 0) = positions (fun p => negb (bit p) && bit (p + 1)) (S b)) by (rewrite positions_S; subst; reflexivity).
      clear X P C D.
      replace (N.of_nat (S b)) with (N.of_nat b + 1) by lia.
      destruct (bit (N.of_nat b)), (bit (N.of_nat b + 1)); cbn [negb andb xorb] in *; cbn [N.add Pos.add Pos.succ];
        rewrite ?N.add_0_r in *; replace (N.of_nat b + 1) with (N.of_nat (S b)) by lia; apply IH; auto; lia.
Qed.
End Runs.

(** ** sts_serial *)
Section Serial.
Variables (m : N) (words : list N) (first : N) (rest : list N).
Hypothesis ws : words = first :: rest.
Hypothesis m1 : 1 <= m.
Hypothesis m16 : m <= 16.
Hypothesis word32 : forall x, In x words -> x < 2 ^ 32.
Let n := length words.
Let buf := words ++ [first].

Definition wd (q : nat) : N := nth (q mod n) words 0.
Lemma buf_wd : forall q, (q <= n)%nat -> nth q buf 0 = wd q.
Proof.
  intros q H. unfold wd, buf. destruct (Nat.eq_dec q n) as [->|E].
  - rewrite Nat.mod_same by (unfold n; rewrite ws; cbn; lia). rewrite app_nth2 by (unfold n; lia). unfold n. rewrite Nat.sub_diag, ws. reflexivity.
  - rewrite Nat.mod_small by lia. rewrite app_nth1 by (unfold n in *; lia). reflexivity.
Qed.
Lemma n_pos : (n <> 0)%nat. Proof. unfold n. rewrite ws. discriminate. Qed.
Lemma wd_lt : forall q, wd q < 2 ^ 32.
Proof. intro. apply word32. unfold wd. apply nth_In. apply Nat.mod_upper_bound, n_pos. Qed.

(** Content of [window] when bit t is the next to be read. *)
Definition window_at (t : nat) : N :=
  if (t mod 32 <? 16)%nat then wd (t / 32) else wd (t / 32) mod 2 ^ 16 * 2 ^ 16 + wd (t / 32 + 1) / 2 ^ 16.
Lemma window_lt : forall t, window_at t < 2 ^ 32.
Proof.
  intro t. unfold window_at. destruct (_ <? _)%nat; [apply wd_lt|]. pose proof (wd_lt (t / 32 + 1)).
  assert (wd (t / 32 + 1) / 2 ^ 16 < 2 ^ 16) by (apply N.div_lt_upper_bound; [discriminate|]; exact H).
  pose proof (N.mod_upper_bound (wd (t / 32)) (2 ^ 16) ltac:(discriminate)). change (2 ^ 32) with (2 ^ 16 * 2 ^ 16) . nia.
Qed.

Lemma cyc_bit : forall q r, (r < 32)%nat -> cyclic_msb_bit words (N.of_nat (32 * q + r)) = N.testbit (wd q) (31 - N.of_nat r).
Proof.
  intros q r R. unfold cyclic_msb_bit, msb. fold n. pose proof n_pos as NP.
  replace (32 * N.of_nat n) with (N.of_nat (32 * n)) by lia. rewrite <- Nat2N.inj_mod.
  assert (E : ((32 * q + r) mod (32 * n) = 32 * (q mod n) + r)%nat).
  { symmetry. apply (Nat.mod_unique _ _ (q / n)).
    - pose proof (Nat.mod_upper_bound q n NP). nia.
    - pose proof (Nat.div_mod q n NP). nia. }
  rewrite E. change 32 with (N.of_nat 32) at 1 2. rewrite <- Nat2N.inj_div, <- Nat2N.inj_mod, Nat2N.id.
  replace ((32 * (q mod n) + r) / 32)%nat with (q mod n)%nat by (apply (Nat.div_unique _ _ _ r); lia).
  replace ((32 * (q mod n) + r) mod 32)%nat with r by (apply (Nat.mod_unique _ _ (q mod n)); lia). reflexivity.
Qed.

Lemma window_value_ok : forall t,
  N.land (N.shiftr (window_at t) (32 - m - N.of_nat (t mod 16))) (2 ^ m - 1) = window_value (cyclic_msb_bit words) (N.of_nat t) (N.to_nat m).
Proof.
  intro t. unfold window_value. apply N.bits_inj. intro k. rewrite testbit_number_of_bits.
  rewrite land_mod_pow, testbit_mod, N2Nat.id. destruct (N.ltb_spec k m) as [K|K]; [|reflexivity]. cbn [andb].
  rewrite testbit_shiftr.
  pose proof (Nat.div_mod t 32 ltac:(lia)) as D. pose proof (Nat.mod_upper_bound t 32 ltac:(lia)) as U.
  assert (M16 : (t mod 16 = if t mod 32 <? 16 then t mod 32 else t mod 32 - 16)%nat).
  { destruct (Nat.ltb_spec (t mod 32) 16); symmetry; [apply (Nat.mod_unique _ _ (2 * (t / 32)))|apply (Nat.mod_unique _ _ (2 * (t / 32) + 1))]; lia. }
  unfold window_at. rewrite M16. generalize dependent (t / 32)%nat. generalize dependent (t mod 32)%nat. intros r U M q D. clear M.
  destruct (Nat.ltb_spec r 16) as [R|R].
  - replace (N.of_nat t + m - 1 - k) with (N.of_nat (32 * q + (r + N.to_nat (m - 1 - k)))) by lia.
    rewrite cyc_bit by lia. f_equal. lia.
  - set (b := k + (32 - m - N.of_nat (r - 16))).
    rewrite <- N.shiftl_mul_pow2, <- N.shiftr_div_pow2, add_lor_disjoint, N.lor_spec.
    2: { apply N.bits_inj. intro i. rewrite N.land_spec, N.bits_0. destruct (N.ltb_spec i 16).
         - rewrite N.shiftl_spec_low by assumption. reflexivity.
         - rewrite testbit_shiftr, (testbit_lt (wd (q + 1)) 32) by (apply wd_lt || lia). apply andb_false_r. }
    destruct (N.ltb_spec b 16) as [B|B].
    + rewrite N.shiftl_spec_low by exact B. cbn [orb]. rewrite testbit_shiftr.
      replace (N.of_nat t + m - 1 - k) with (N.of_nat (32 * (q + 1) + (r + N.to_nat (m - 1 - k) - 32))) by (unfold b in *; lia).
      rewrite cyc_bit by (unfold b in *; lia). f_equal. unfold b in *. lia.
    + rewrite N.shiftl_spec_high' by exact B. rewrite testbit_mod, testbit_shiftr, (testbit_lt (wd (q + 1)) 32) by (apply wd_lt || lia).
      rewrite orb_false_r. replace (b - 16 <? 16) with true by (unfold b; lia). cbn [andb].
      replace (N.of_nat t + m - 1 - k) with (N.of_nat (32 * q + (r + N.to_nat (m - 1 - k)))) by (unfold b in *; lia).
      rewrite cyc_bit by (unfold b in *; lia). f_equal. unfold b in *. lia.
Qed.

Definition st_ok (t : nat) (s : N * N * N * list N) : Prop :=
  let '(t', j, window, freq) := s in
  t' = N.of_nat t /\ j = N.of_nat ((t + 31) / 32) /\ ((t mod 32 <> 0)%nat -> window = window_at t) /\
  length freq = N.to_nat (2 ^ m) /\
  tallies freq (map (fun t => Z.of_N (window_value (cyclic_msb_bit words) (N.of_nat t) (N.to_nat m))) (seq 0 t)).

Lemma serial_step_ok : forall t s, (t < 32 * n)%nat -> st_ok t s -> exists s', serial_step m buf s = Ok s' /\ st_ok (S t) s'.
Proof.
  intros t [[[t' j] window] freq] Ht (-> & -> & W & L & T). unfold serial_step.
  assert (LB : length buf = S n) by (unfold buf; rewrite app_length; unfold n; cbn; lia).
  pose proof (Nat.div_mod t 32 ltac:(lia)) as D. pose proof (Nat.mod_upper_bound t 32 ltac:(lia)) as U.
  assert (Q : (t / 32 < n)%nat) by (apply Nat.div_lt_upper_bound; lia).
  assert (J : (do (j, window) <- (if N.of_nat t mod 32 =? 0 then
      do x <- aget buf (Z.of_N (N.of_nat ((t + 31) / 32))) ;; Ok (N.of_nat ((t + 31) / 32) + 1, x)
    else Ok (N.of_nat ((t + 31) / 32), window)) ;; Ok (j, window)) = Ok (N.of_nat (t / 32 + 1), window_at t)).
  { change 32 with (N.of_nat 32). rewrite <- Nat2N.inj_mod. change 0 with (N.of_nat 0) at 1. rewrite nat_eqb_N.
    destruct (Nat.eqb_spec (t mod 32) 0) as [E|E].
    - replace ((t + 31) / 32)%nat with (t / 32)%nat by (apply (Nat.div_unique _ _ _ 31); lia).
      rewrite (aget_ok buf _ 0) by lia. cbn [bind]. replace (Z.to_nat (Z.of_N (N.of_nat (t / 32)))) with (t / 32)%nat by lia.
      rewrite buf_wd by lia. unfold window_at. rewrite E. cbn [Nat.ltb Nat.leb]. do 2 f_equal. lia.
    - replace ((t + 31) / 32)%nat with (t / 32 + 1)%nat by (apply (Nat.div_unique _ _ _ (t mod 32 - 1)); lia).
      cbn [bind]. rewrite W by exact E. reflexivity. }
  assert (BI : N.of_nat t mod 16 = N.of_nat (t mod 16)) by (change 16 with (N.of_nat 16); rewrite <- Nat2N.inj_mod; reflexivity).
  pose proof (Nat.mod_upper_bound t 16 ltac:(lia)) as U16.
  destruct (if N.of_nat t mod 32 =? 0 then _ else _) as [[j' window']|?|?|] eqn:EJ; cbn [bind] in J; try discriminate.
  assert (J1 : j' = N.of_nat (t / 32 + 1)) by congruence. assert (J2 : window' = window_at t) by congruence. subst j' window'. clear J EJ.
  cbn [bind]. rewrite BI.
  assert (SH : sub32 (sub32 32 m) (N.of_nat (t mod 16)) = 32 - m - N.of_nat (t mod 16)).
  { assert (Q0 : sub32 32 m = 32 - m) by (apply sub32_small; lia). rewrite Q0. apply sub32_small; lia. }
  rewrite SH. unfold shr32. replace (32 - m - N.of_nat (t mod 16) <? 32) with true by lia. cbn [bind].
  rewrite window_value_ok.
  assert (VB : (0 <= Z.of_N (window_value (cyclic_msb_bit words) (N.of_nat t) (N.to_nat m)) < Z.of_nat (length freq))%Z).
  { rewrite L. rewrite <- window_value_ok, land_mod_pow. pose proof (N.mod_upper_bound (N.shiftr (window_at t) (32 - m - N.of_nat (t mod 16))) (2 ^ m) ltac:(apply N.pow_nonzero; discriminate)). lia. }
  destruct (tallies_bump freq _ _ T VB) as (freq' & F & LF & TF). rewrite F. cbn [bind].
  assert (TS : tallies freq' (map (fun t => Z.of_N (window_value (cyclic_msb_bit words) (N.of_nat t) (N.to_nat m))) (seq 0 (S t)))).
  { rewrite seq_S, map_app. exact TF. }
  assert (JS : N.of_nat (t / 32 + 1) = N.of_nat ((S t + 31) / 32)).
  { f_equal. apply (Nat.div_unique _ _ _ (t mod 32)); lia. }
  change 15 with (N.of_nat 15). rewrite nat_eqb_N. destruct (Nat.eqb_spec (t mod 16) 15) as [E|E].
  - rewrite (aget_ok buf _ 0) by lia. cbn [bind]. replace (Z.to_nat (Z.of_N (N.of_nat (t / 32 + 1)))) with (t / 32 + 1)%nat by lia.
    rewrite buf_wd by lia. eexists. split; [reflexivity|]. unfold st_ok.
    split; [lia|]. split; [exact JS|]. split; [|split; [lia|exact TS]].
    intro NZ. assert (R : (t mod 32 = 15)%nat).
    { assert (t mod 32 <> 31)%nat. { intro H. apply NZ. symmetry. apply (Nat.mod_unique _ _ (t / 32 + 1)); lia. }
      pose proof (Nat.div_mod t 16 ltac:(lia)) as D16. rewrite E in D16. clear - H D D16 U. lia. }
    assert (S32 : (S t mod 32 = 16)%nat) by (symmetry; apply (Nat.mod_unique _ _ (t / 32)); lia).
    assert (SD : (S t / 32 = t / 32)%nat) by (symmetry; apply (Nat.div_unique _ _ _ 16); lia).
    unfold window_at. rewrite R, S32, SD. cbn [Nat.ltb Nat.leb]. change (2 ^ 32) with (2 ^ 16 * 2 ^ 16).
    assert (E1 : w32 (N.shiftl (wd (t / 32)) 16) = wd (t / 32) mod 2 ^ 16 * 2 ^ 16).
    { unfold w32. rewrite N.shiftl_mul_pow2. change (2 ^ 32) with (2 ^ 16 * 2 ^ 16). apply N.mul_mod_distr_r; discriminate. }
    rewrite E1, N.shiftr_div_pow2. unfold add32. apply w32_small.
    pose proof (window_lt (S t)) as WL. unfold window_at in WL. rewrite S32, SD in WL. exact WL.
  - eexists. split; [reflexivity|]. unfold st_ok.
    split; [lia|]. split; [exact JS|]. split; [|split; [lia|exact TS]].
    intro NZ. assert (SD : (S t / 32 = t / 32)%nat /\ (S t mod 32 = t mod 32 + 1)%nat).
    { assert (t mod 32 <> 31)%nat. { intro H. apply NZ. symmetry. apply (Nat.mod_unique _ _ (t / 32 + 1)); lia. }
      split; symmetry; [apply (Nat.div_unique _ _ _ (t mod 32 + 1))|apply (Nat.mod_unique _ _ (t / 32))]; lia. }
    destruct SD as [S1 S2]. unfold window_at. rewrite S1, S2.
    assert (R : (t mod 32 <> 15)%nat). { intro R. apply E. symmetry. apply (Nat.mod_unique _ _ (2 * (t / 32))); lia. }
    destruct (Nat.ltb_spec (t mod 32) 16), (Nat.ltb_spec (t mod 32 + 1) 16); try reflexivity; exfalso; lia.
Qed.
End Serial.
