(** C47, C48 and C73: the tree-filling tests and the rotation of their inputs. *)
From Coq Require Import FinFun.
From Verif Require Import BaseLemmas TallyLemmas MissingLemmas TreeModel TreeSpec TreeLemmas TreeLemmas2.
Open Scope N_scope.

(** ** C48: the rotation *)

(** When both shift counts are below 32 the macro is the rotation by n. *)
Theorem C48_rotation_partial : forall w x n, 1 <= w -> w <= 32 -> x < 2 ^ w -> n <= w -> n < 32 -> w - n < 32 ->
  exists r, rotl w x n = Ok r /\ Rotated w n x r.
Proof.
  intros w x n W1 W2 X A B C. destruct (rotl_ok w x n W1 W2 X (conj A (conj B C))) as (r & E & R & T). exists r. split; [exact E|]. split; assumption.
Qed.
Example C48_rotation_ex : rotl 24 0x812345 4 = Ok 0x123458 /\ rotl 32 0x81234567 8 = Ok 0x23456781.
Proof. split; vm_compute; reflexivity. Qed.

(** A rotation loses nothing. *)
Theorem C48_injective_partial : forall w x y n r, 1 <= w -> x < 2 ^ w -> y < 2 ^ w ->
  Rotated w n x r -> Rotated w n y r -> x = y.
Proof.
  intros w x y n r W X Y [_ A] [_ B]. apply N.bits_inj. intro b. destruct (N.ltb_spec b w) as [L|L].
  - rewrite <- (A b L). apply B. exact L.
  - rewrite (testbit_lt x w b X L). symmetry. apply (testbit_lt y w b Y L).
Qed.
Example C48_injective_ex : Rotated 8 3 0x91 0x8C /\ 0x91 < 2 ^ 8.
Proof.
  split; [|reflexivity]. split; [reflexivity|]. intros b B.
  destruct b as [|[[[|[]|]|[]|]|[[]|[]|]|]]; cbn in B |- *; try reflexivity; lia.
Qed.

(** In every other case a shift count is out of range; with 32-bit generators
    this includes the rotation by nothing. *)
Theorem C48_undefined_refuted : forall w x n, w <= 32 -> n < 2 ^ 32 -> ~ (n <= w /\ n < 32 /\ w - n < 32) -> exists why, rotl w x n = UB why.
Proof. exact rotl_bad. Qed.
Example C48_undefined_ex : ~ (0 <= 32 /\ 0 < 32 /\ 32 - 0 < 32).
Proof. intros (_ & _ & H). discriminate. Qed.

(** Hence the first tree, and the first vector of the DCT test, of every run
    over a 32-bit generator performs an undefined shift. *)
Theorem C48_filltree_refuted : forall g tsamples c, (0 < tsamples)%nat -> exists why, filltree g 32 32 tsamples c = UB why.
Proof.
  intros g tsamples c H. destruct tsamples as [|n]; [lia|]. unfold filltree. cbn [trees].
  destruct (rotl_bad 32 (g c) 0) as [why E]; [lia|reflexivity|intros (_ & _ & Q); discriminate|].
  exists why. change (N.to_nat (32 * 2) + 2)%nat with (S 65). cbn [tree]. rewrite E. reflexivity.
Qed.
Example C48_filltree_ex : filltree (fun k => N.of_nat k * 7919) 32 32 8 0 = UB "shift count".
Proof. vm_compute. reflexivity. Qed.
Theorem C48_dct_refuted : forall g len tsamples c, (0 < len)%nat -> (0 < tsamples)%nat -> exists why, dct_inputs g len 32 tsamples c = UB why.
Proof.
  intros g len tsamples c L H. destruct tsamples as [|n]; [lia|]. destruct len as [|m]; [lia|]. unfold dct_inputs. cbn [dct_vectors N.eqb bind dct_vector].
  destruct (rotl_bad 32 (g c) 0) as [why E]; [lia|reflexivity|intros (_ & _ & Q); discriminate|]. exists why. rewrite E. reflexivity.
Qed.
Example C48_dct_ex : dct_inputs (fun k => N.of_nat k * 7919) 4 32 8 0 = UB "shift count".
Proof. vm_compute. reflexivity. Qed.

(** With narrower generators and a number of samples that is a multiple of
    four, vector j of the DCT test holds words len*j .. len*j+len-1 of the
    stream rotated by (w/4) * floor(4j/tsamples): a quarter of the samples for
    each of the four quarter turns. *)
Lemma dct_vector_ok : forall g w rot, 1 <= w -> w <= 32 -> (forall k, g k < 2 ^ w) -> rot_defined w rot -> forall n c,
  exists v, dct_vector g n w rot c = Ok (v, (c + n)%nat) /\ length v = n /\ forall k, (k < n)%nat -> Rotated w rot (g (c + k)%nat) (nth k v 0).
Proof.
  intros g w rot W1 W2 B D. induction n as [|n IH]; intro c; cbn [dct_vector].
  - exists []. split; [do 2 f_equal; lia|]. split; [reflexivity|]. intros; lia.
  - destruct (rotl_ok w (g c) rot W1 W2 (B c) D) as (x & E & X & T). rewrite E. cbn [bind]. destruct (IH (S c)) as (v & F & L & Q). rewrite F. cbn [bind].
    exists (x :: v). split; [do 2 f_equal; lia|]. split; [cbn [length]; lia|]. intros [|k] K; [rewrite Nat.add_0_r; split; assumption|].
    cbn [nth]. replace (c + S k)%nat with (S c + k)%nat by lia. apply Q. lia.
Qed.
Lemma quarter_lt : forall w a, w < 32 -> 1 <= w -> a < 4 -> rot_defined w (w / 4 * a).
Proof.
  intros w a W W1 A. assert (4 * (w / 4) <= w) by (apply N.mul_div_le; discriminate). unfold rot_defined.
  generalize dependent (w / 4). intros q Q. assert (q * a <= w) by nia. assert (q * a < 32) by lia. repeat split; lia.
Qed.
Theorem C48_dct_partial : forall g len w q c, 1 <= w -> w < 32 -> (forall k, g k < 2 ^ w) -> (0 < q)%nat ->
  exists vs, dct_inputs g len w (4 * q) c = Ok (vs, (c + len * (4 * q))%nat) /\ length vs = (4 * q)%nat /\
    forall j k, (j < 4 * q)%nat -> (k < len)%nat ->
      length (nth j vs []) = len /\ Rotated w (w / 4 * N.of_nat (j / q)) (g (c + len * j + k)%nat) (nth k (nth j vs []) 0).
Proof.
  intros g len w q c W1 W2 B Q. unfold dct_inputs.
  assert (T4 : N.of_nat (4 * q) / 4 = N.of_nat q). { rewrite Nat2N.inj_mul, N.mul_comm. apply N.div_mul. discriminate. }
  assert (G : forall r j c rot, (j + r <= 4 * q)%nat -> rot = w / 4 * N.of_nat ((j - 1) / q) -> exists vs, dct_vectors g r (N.of_nat j) len w (N.of_nat (4 * q)) rot c = Ok (vs, (c + len * r)%nat) /\ length vs = r /\
    forall i k, (i < r)%nat -> (k < len)%nat -> length (nth i vs []) = len /\ Rotated w (w / 4 * N.of_nat ((j + i) / q)) (g (c + len * i + k)%nat) (nth k (nth i vs []) 0)).
  { induction r as [|r IH]; intros j c0 rot JR RE; cbn [dct_vectors].
    - exists []. split; [do 2 f_equal; lia|]. split; [reflexivity|]. intros; lia.
    - assert (STEP : (if N.of_nat j =? 0 then Ok rot else if N.of_nat (4 * q) / 4 =? 0 then UB "division by zero" else Ok (if N.of_nat j mod (N.of_nat (4 * q) / 4) =? 0 then rot + w / 4 else rot)) = Ok (w / 4 * N.of_nat (j / q))).
      { destruct j as [|j]; [cbn [N.of_nat N.eqb]; rewrite RE, !Nat.div_0_l by lia; reflexivity|].
        rewrite (proj2 (N.eqb_neq (N.of_nat (S j)) 0)) by lia. rewrite T4, (proj2 (N.eqb_neq (N.of_nat q) 0)) by lia. f_equal. rewrite RE.
        replace (S j - 1)%nat with j by lia.
        assert (MM : N.of_nat (S j) mod N.of_nat q = N.of_nat (S j mod q)) by (symmetry; apply Nat2N.inj_mod). rewrite MM.
        destruct (N.eqb_spec (N.of_nat (S j mod q)) 0) as [Z|Z].
        - assert (Z' : (S j mod q = 0)%nat) by lia. assert (EQ : (S j / q = j / q + 1)%nat).
          { symmetry. apply Nat.div_unique with (r := 0%nat); [lia|]. pose proof (Nat.div_mod_eq (S j) q) as D. rewrite Z' in D.
            assert ((j / q = S j / q - 1)%nat). { symmetry. apply Nat.div_unique with (r := (q - 1)%nat); [lia|]. destruct (S j / q)%nat; nia. }
            destruct (S j / q)%nat; nia. }
          rewrite EQ, Nat2N.inj_add. change (N.of_nat 1) with 1. rewrite N.mul_add_distr_l, N.mul_1_r. reflexivity.
        - do 2 f_equal. symmetry. apply Nat.div_unique with (r := (S j mod q - 1)%nat).
          + pose proof (Nat.mod_upper_bound (S j) q ltac:(lia)). lia.
          + pose proof (Nat.div_mod_eq (S j) q). assert ((S j mod q <> 0)%nat) by lia. lia. }
      rewrite STEP. cbn [bind].
      assert (J4 : (j / q < 4)%nat) by (apply Nat.div_lt_upper_bound; lia).
      destruct (dct_vector_ok g w (w / 4 * N.of_nat (j / q)) W1 ltac:(lia) B (quarter_lt w (N.of_nat (j / q)) W2 W1 ltac:(lia)) len c0) as (v & E & L & P). rewrite E. cbn [bind].
      replace (N.of_nat j + 1) with (N.of_nat (S j)) by lia.
      destruct (IH (S j) (c0 + len)%nat (w / 4 * N.of_nat (j / q))) as (vs & E2 & L2 & P2); [lia|do 2 f_equal; replace (S j - 1)%nat with j by lia; reflexivity|]. rewrite E2. cbn [bind].
      exists (v :: vs). split; [do 2 f_equal; nia|]. split; [cbn [length]; lia|]. intros [|i] k Hi Hk; cbn [nth].
      + split; [exact L|]. rewrite Nat.add_0_r, Nat.mul_0_r, Nat.add_0_r. apply P. exact Hk.
      + destruct (P2 i k ltac:(lia) Hk) as [Q1 Q2]. split; [exact Q1|]. replace (j + S i)%nat with (S j + i)%nat by lia. replace (c0 + len * S i + k)%nat with (c0 + len + len * i + k)%nat by nia. exact Q2. }
  destruct (G (4 * q)%nat 0%nat c 0) as (vs & E & L & P); [lia|cbn [Nat.sub]; rewrite Nat.div_0_l by lia; cbn [N.of_nat]; lia|].
  exists vs. split; [exact E|]. split; [exact L|]. intros j k Hj Hk. specialize (P j k Hj Hk). exact P.
Qed.
Example C48_dct_partial_ex : dct_inputs (fun k => N.of_nat k + 1) 2 8 (4 * 1) 0 = Ok ([[1; 2]; [12; 16]; [80; 96]; [193; 2]], 8%nat).
Proof. vm_compute. reflexivity. Qed.

(** Two or three samples divide by zero; seven samples turn too far. *)
Theorem C48_dct_few_refuted : forall g len w tsamples, 1 <= w -> w < 32 -> (forall k, g k < 2 ^ w) ->
  (tsamples = 2 \/ tsamples = 3)%nat -> dct_inputs g len w tsamples 0 = UB "division by zero".
Proof.
  intros g len w tsamples W1 W2 B [-> | ->]; unfold dct_inputs; cbn [dct_vectors N.eqb N.of_nat bind];
    (destruct (dct_vector_ok g w 0 W1 ltac:(lia) B ltac:(repeat split; lia) len 0) as (v & E & _); rewrite E; reflexivity).
Qed.
Example C48_dct_few_ex : dct_inputs (fun k => N.of_nat k mod 5 + 1) 2 31 2 0 = UB "division by zero" /\
  dct_inputs (fun k => N.of_nat k mod 5 + 1) 2 31 7 0 = UB "shift count".
Proof. split; vm_compute; reflexivity. Qed.

(** ** C47: filling trees *)

(** The counters are indexed by the number of words a tree took.  When the
    words are nonzero and the rotation is defined, the test counts, for every
    tree, the length and the last slot of the search tree grown from
    consecutive rotated words.  All accesses are in range. *)
Definition rot_at (tsamples : nat) (j : N) : N := let q := N.of_nat tsamples / 4 in (j + q - 1) / q.
Lemma rot_at_small : forall n j, (4 <= n)%nat -> j < N.of_nat n -> rot_at n j <= 6.
Proof.
  intros n j N4 J. unfold rot_at. set (q := N.of_nat n / 4). assert (Q1 : 1 <= q) by (apply N.div_le_lower_bound; lia).
  assert (N.of_nat n < 4 * (q + 1)). { pose proof (N.mul_succ_div_gt (N.of_nat n) 4 ltac:(discriminate)). unfold q. lia. }
  clearbody q. apply N.lt_succ_r, N.div_lt_upper_bound; [lia|]. nia.
Qed.
Lemma rot_at_step : forall n j, (4 <= n)%nat -> rot_at n (j + 1) = if j mod (N.of_nat n / 4) =? 0 then rot_at n j + 1 else rot_at n j.
Proof.
  intros n j N4. unfold rot_at. set (q := N.of_nat n / 4). assert (Q1 : 1 <= q) by (apply N.div_le_lower_bound; lia). clearbody q.
  assert (DM : j = q * (j / q) + j mod q) by (apply N.div_mod'; lia). assert (M : j mod q < q) by (apply N.mod_lt; lia).
  destruct (N.eqb_spec (j mod q) 0) as [Z|Z].
  - rewrite Z in DM. generalize dependent (j / q). intros a DM. generalize dependent (j mod q). intros m M Z.
    replace ((j + 1 + q - 1) / q) with (a + 1) by (apply (N.div_unique _ _ _ 0); lia).
    f_equal. apply (N.div_unique _ _ _ (q - 1)); lia.
  - generalize dependent (j mod q). intros m DM M Z. generalize dependent (j / q). intros a DM.
    replace ((j + 1 + q - 1) / q) with (a + 1) by (apply (N.div_unique _ _ _ m); lia).
    apply (N.div_unique _ _ _ (m - 1)); lia.
Qed.
Theorem C47_filltree_partial : forall g w tsamples c,
  7 <= w -> w < 32 -> (forall k, 0 < g k /\ g k < 2 ^ w) -> (4 <= tsamples)%nat ->
  exists rs counts pos c',
    filltree g 32 w tsamples c = Ok (Some (counts, pos), c') /\
    Forest g w (rot_at tsamples) 0 c rs c' /\ length rs = tsamples /\
    length counts = 20%nat /\ tallies counts (map (fun r => Z.of_nat (snd r) - 1)%Z rs) /\
    length pos = 16%nat /\ tallies pos (map (fun r => Z.of_N (fst r)) rs) /\
    (forall r, In r rs -> (snd r <= 16)%nat).
Proof.
  intros g w tsamples c W1 W2 B T4. unfold filltree. change (N.to_nat (32 / 2)) with 16%nat.
  assert (G : forall r j c rot counts pos cl pl, (j + r <= tsamples)%nat -> rot = rot_at tsamples (N.of_nat j) ->
    length counts = 20%nat -> length pos = 16%nat -> tallies counts cl -> tallies pos pl ->
    exists rs counts' pos' c', trees g r (N.of_nat j) 32 w (N.of_nat tsamples) rot counts pos c = Ok (Some (counts', pos'), c') /\
      Forest g w (rot_at tsamples) (N.of_nat j) c rs c' /\ length rs = r /\ length counts' = 20%nat /\ length pos' = 16%nat /\
      tallies counts' (cl ++ map (fun r => Z.of_nat (snd r) - 1)%Z rs) /\ tallies pos' (pl ++ map (fun r => Z.of_N (fst r)) rs) /\
      (forall r, In r rs -> (snd r <= 16)%nat)).
  { induction r as [|r IH]; intros j c0 rot counts pos cl pl JR RE LC LP TC TP; cbn [trees].
    - exists [], counts, pos, c0. rewrite !app_nil_r. split; [reflexivity|]. split; [constructor|]. repeat (split; [assumption || reflexivity|]). intros ? [].
    - assert (RD : rot_defined w rot).
      { pose proof (rot_at_small tsamples (N.of_nat j) T4 ltac:(lia)) as RS. rewrite <- RE in RS. clear - RS W1 W2. unfold rot_defined. lia. }
      destruct (tree_ok g w ltac:(lia) ltac:(lia) (fun k => proj2 (B k)) (fun k => ltac:(pose proof (B k); lia)) rot RD (N.to_nat (32 * 2) + 2) (repeat 0 (N.to_nat 32)) Empty 0 c0)
        as (xs & y & t & p & E & RX & BG & BA & P16 & L15); [reflexivity|apply rep_empty|exact I|reflexivity|lia|].
      change (32 / 2 - 1) with 15. rewrite E. cbn [bind].
      replace (2 * p / 2) with p by (rewrite N.mul_comm, N.div_mul by discriminate; reflexivity).
      destruct (tallies_bump pos pl (Z.of_N p) TP) as (pos' & BP & LP' & TP'); [lia|]. rewrite BP. cbn [bind].
      destruct (tallies_bump counts cl (Z.of_N (0 + N.of_nat (length xs) + 1) - 1) TC) as (counts' & BC & LC' & TC'); [lia|]. rewrite BC. cbn [bind].
      assert (Q0 : (N.of_nat tsamples / 4 =? 0) = false) by (apply N.eqb_neq; assert (1 <= N.of_nat tsamples / 4) by (apply N.div_le_lower_bound; lia); lia).
      rewrite Q0. replace (N.of_nat j + 1) with (N.of_nat (S j)) by lia.
      destruct (IH (S j) (c0 + length xs + 1)%nat (if N.of_nat j mod (N.of_nat tsamples / 4) =? 0 then rot + 1 else rot) counts' pos' _ _ ltac:(lia)
        ltac:(replace (N.of_nat (S j)) with (N.of_nat j + 1) by lia; rewrite rot_at_step by exact T4; rewrite RE; reflexivity) ltac:(lia) ltac:(lia) TC' TP')
        as (rs & counts2 & pos2 & c2 & E2 & F2 & L2 & LC2 & LP2 & TC2 & TP2 & B2).
      exists ((p, length (xs ++ [y])) :: rs), counts2, pos2, c2. split; [exact E2|].
      assert (LXY : length (xs ++ [y]) = (length xs + 1)%nat) by (rewrite app_length; reflexivity).
      split; [|split; [cbn [length]; lia|split; [lia|split; [lia|split; [|split]]]]].
      + constructor.
        * rewrite <- RE. exact RX.
        * exists xs, y, t. auto.
        * rewrite LXY, Nat.add_assoc. replace (N.of_nat j + 1) with (N.of_nat (S j)) by lia. exact F2.
      + rewrite <- app_assoc in TC2. cbn [app map fst snd] in TC2 |- *. rewrite LXY. replace (Z.of_nat (length xs + 1) - 1)%Z with (Z.of_N (0 + N.of_nat (length xs) + 1) - 1)%Z by lia. exact TC2.
      + rewrite <- app_assoc in TP2. cbn [app map fst snd] in TP2 |- *. exact TP2.
      + intros r0 [<-|I0]; [cbn [snd]; rewrite LXY; lia|apply B2; exact I0]. }
  destruct (G tsamples 0%nat c 0 (repeat 0 20) (repeat 0 16) [] []) as (rs & counts & pos & c' & E & F & L & LC & LP & TC & TP & BB); try reflexivity; try apply tallies_nil.
  - unfold rot_at. symmetry. apply N.div_small. assert (1 <= N.of_nat tsamples / 4) by (apply N.div_le_lower_bound; lia). lia.
  - exists rs, counts, pos, c'. split; [exact E|]. split; [exact F|]. repeat (split; [assumption|]). exact BB.
Qed.
Example C47_filltree_ex :
  filltree (fun k => 1 + (N.of_nat k * 1103515245 + 12345) mod (2 ^ 31 - 1)) 32 31 5 0 =
  Ok (Some ([0;0;0;0;3;1;1;0;0;0;0;0;0;0;0;0;0;0;0;0], [0;0;0;0;0;0;0;1;0;0;0;1;0;0;0;3]), 28%nat).
Proof. vm_compute. reflexivity. Qed.

(** With zeros among the words the count of words can pass the 20 counters. *)
Theorem C47_zeros_refuted : exists g, (forall k, g k < 2 ^ 31) /\ filltree g 32 31 4 0 = UB "array index".
Proof.
  exists (fun k => nth k (repeat 0 30 ++ [1; 2; 3; 4; 5]) 0). split; [|vm_compute; reflexivity].
  intro k. destruct (Nat.ltb_spec k 35) as [L|L].
  - do 35 (destruct k as [|k]; [reflexivity|]). lia.
  - rewrite nth_overflow by (cbn; lia). reflexivity.
Qed.
Example C47_zeros_ex : filltree (fun k => nth k (repeat 0 30 ++ [1; 2; 3; 4; 5]) 0) 32 31 4 0 = UB "array index".
Proof. vm_compute. reflexivity. Qed.
(** A generator that sticks at zero ends the test after 65 words with nothing
    counted (the early return, which sets only the first of two p-values). *)
Theorem C47_stuck_refuted : forall w tsamples c, 1 <= w -> w < 32 -> (0 < tsamples)%nat ->
  filltree (fun _ => 0) 32 w tsamples c = Ok (None, (c + 65)%nat).
Proof.
  intros w tsamples c W1 W2 H. destruct tsamples as [|n]; [lia|]. unfold filltree. cbn [trees]. change (N.to_nat (32 * 2) + 2)%nat with 66%nat.
  assert (E : rotl w 0 0 = Ok 0).
  { destruct (rotl_ok w 0 0 W1 ltac:(lia) ltac:(apply N.neq_0_lt_0, N.pow_nonzero; discriminate) ltac:(repeat split; lia)) as (r & E & RB & T). rewrite E. f_equal.
    apply N.bits_inj_0. intro b. destruct (N.ltb_spec b w) as [L|L]; [|apply (testbit_lt r w b RB L)]. specialize (T b L). rewrite N.add_0_r, N.mod_small in T by exact L. rewrite T. apply N.bits_0. }
  assert (G : forall f i c, i + N.of_nat f = 66 -> i <= 64 -> tree (fun _ => 0) f 32 (32 / 2 - 1) w 0 (repeat 0 (N.to_nat 32)) i c = Ok (None, (c + N.to_nat (65 - i))%nat)).
  { induction f as [|f IH]; intros i c0 FU I64; [lia|]. cbn [tree]. rewrite E. cbn [bind]. change (32 * 2) with 64. destruct (N.ltb_spec 64 (i + 1)) as [Q|Q].
    - do 2 f_equal. lia.
    - change (insert 0 (repeat 0 (N.to_nat 32)) (32 / 2 - 1)) with (Ok (@None N, repeat 0 (N.to_nat 32))). cbn [bind]. rewrite IH by lia. do 2 f_equal. lia. }
  rewrite G by lia. cbn [bind]. do 2 f_equal.
Qed.
Example C47_stuck_ex : filltree (fun _ => 0) 32 24 1000 7 = Ok (None, 72%nat).
Proof. vm_compute. reflexivity. Qed.

(** Fewer than four samples divide by zero after the first tree. *)
Theorem C47_few_refuted : forall g w c, 7 <= w -> w < 32 -> (forall k, 0 < g k /\ g k < 2 ^ w) -> forall tsamples, (0 < tsamples < 4)%nat ->
  filltree g 32 w tsamples c = UB "division by zero".
Proof.
  intros g w c W1 W2 B tsamples T. unfold filltree. destruct tsamples as [|r]; [lia|]. cbn [trees].
  destruct (tree_ok g w ltac:(lia) ltac:(lia) (fun k => proj2 (B k)) (fun k => ltac:(pose proof (B k); lia)) 0 ltac:(unfold rot_defined; lia) (N.to_nat (32 * 2) + 2) (repeat 0 (N.to_nat 32)) Empty 0 c)
        as (xs & y & t & p & E & RX & BG & BA & P16 & L15); [reflexivity|apply rep_empty|exact I|reflexivity|lia|].
  change (32 / 2 - 1) with 15. rewrite E. cbn [bind]. replace (2 * p / 2) with p by (rewrite N.mul_comm, N.div_mul by discriminate; reflexivity).
  change (N.to_nat (32 / 2)) with 16%nat. rewrite bump_ok by (rewrite repeat_length; lia). cbn [bind]. rewrite bump_ok by (rewrite repeat_length; lia). cbn [bind].
  rewrite N.div_small by lia. reflexivity.
Qed.
Example C47_few_ex : filltree (fun k => N.of_nat k * 3 mod 101 + 1) 32 31 3 0 = UB "division by zero".
Proof. vm_compute. reflexivity. Qed.

(** ** C73: dab_filltree2

    For every generator, every width and every number of
    samples the test stays inside its tables, never gives up early and counts
    every tree exactly once in each table; a tree takes at most 127 paths. *)
Theorem C73_filltree2 : forall g w tsamples c, exists counts pos s,
  filltree2 g 128 w tsamples c = Ok (Some (counts, pos), s) /\
  length counts = 128%nat /\ length pos = 64%nat /\
  total counts = N.of_nat tsamples /\ total pos = N.of_nat tsamples /\ nth 127 counts 0 = 0.
Proof.
  intros g w tsamples c. unfold filltree2. change (N.to_nat (128 / 2)) with 64%nat.
  assert (G : forall r counts pos cl pl s, length counts = 128%nat -> length pos = 64%nat -> tallies counts cl -> tallies pos pl -> (forall i, In i cl -> (i < 127)%Z) ->
    length cl = length pl ->
    exists counts' pos' cl' pl' s', trees2 g r 128 w counts pos s = Ok (Some (counts', pos'), s') /\ length counts' = 128%nat /\ length pos' = 64%nat /\
      tallies counts' cl' /\ tallies pos' pl' /\ (forall i, In i cl' -> (i < 127)%Z) /\ length cl' = (length cl + r)%nat /\ length pl' = (length pl + r)%nat).
  { induction r as [|r IH]; intros counts pos cl pl s LC LP TC TP B127 LL; cbn [trees2].
    - exists counts, pos, cl, pl, s. split; [reflexivity|]. repeat (split; [assumption|]). split; lia.
    - destruct (tree2_ok g w (N.to_nat (128 * 2) + 2) (repeat 0 (N.to_nat 128)) 0 s) as (ret & n & s' & E & R1 & R2 & N1 & N2); [reflexivity|vm_compute; reflexivity|lia|].
      rewrite E. cbn [bind]. assert (QB : (0 <= Z.quot (Z.of_N ret) 2 < 64)%Z).
      { change 2%Z with (Z.of_N 2). rewrite <- N2Z.inj_quot. assert (H2 : ret / 2 < 64) by (apply N.div_lt_upper_bound; lia). clear - H2. revert H2. generalize (ret / 2). intros. lia. }
      destruct (tallies_bump pos pl _ TP ltac:(rewrite LP; exact QB)) as (pos' & BP & LP' & TP'). rewrite BP. cbn [bind].
      destruct (tallies_bump counts cl (Z.of_N n - 1) TC ltac:(lia)) as (counts' & BC & LC' & TC'). rewrite BC. cbn [bind].
      destruct (IH counts' pos' _ _ s' ltac:(lia) ltac:(lia) TC' TP') as (c2 & p2 & cl2 & pl2 & s2 & E2 & A1 & A2 & A3 & A4 & A5 & A6 & A7).
      + intros i I. apply in_app_or in I. destruct I as [I|[<-|[]]]; [apply B127; exact I|lia].
      + rewrite !app_length, LL. reflexivity.
      + exists c2, p2, cl2, pl2, s2. rewrite !app_length in A6, A7. cbn [length] in A6, A7. repeat (split; [assumption|]). split; lia. }
  destruct (G tsamples (repeat 0 128) (repeat 0 64) [] [] (g c, w, S c)) as (counts & pos & cl & pl & s & E & A1 & A2 & A3 & A4 & A5 & A6 & A7); try reflexivity; try apply tallies_nil; [intros ? []|].
  exists counts, pos, s. split; [exact E|]. split; [exact A1|]. split; [exact A2|]. rewrite (tallies_total _ _ A3), (tallies_total _ _ A4), A6, A7. split; [reflexivity|]. split; [reflexivity|].
  destruct A3 as [_ A3]. rewrite A3 by lia. rewrite (countp_ext _ _ (fun _ => false) cl).
  - clear. induction cl; cbn [countp]; [reflexivity|exact IHcl].
  - intros i I. apply A5 in I. apply Z.eqb_neq. lia.
Qed.
Example C73_filltree2_ex : match filltree2 (fun _ => 0) 128 32 3 0 with Ok (Some (c, p), _) => nth 6 c 0 = 3 /\ nth 0 p 0 = 3 | _ => False end.
Proof. vm_compute. split; reflexivity. Qed.

(** ...and its result depends only on the bits of the stream, least significant
    bit of each word first, not on how they are grouped into words. *)
Theorem C73_filltree2_bits : forall g g' w w' c c' size tsamples,
  1 <= w -> w <= 32 -> 1 <= w' -> w' <= 32 ->
  (forall n, lsb_stream (fun k => g (c + k)%nat) w n = lsb_stream (fun k => g' (c' + k)%nat) w' n) ->
  forall tables s, filltree2 g size w tsamples c = Ok (tables, s) -> exists s', filltree2 g' size w' tsamples c' = Ok (tables, s').
Proof.
  intros g g' w w' c c' size tsamples A B C D SM tables s E. unfold filltree2 in *.
  assert (S0 : forall g w c, 1 <= w -> (g c, w, S c) = at_bit g w c 0).
  { intros h v d V. unfold at_bit. change (N.of_nat 0) with 0. rewrite N.mod_0_l, N.shiftr_0_r, N.sub_0_r by lia. rewrite Nat.div_0_l by lia. rewrite Nat.add_0_r. reflexivity. }
  rewrite S0 in E |- * by assumption.
  destruct (trees2_agree g g' w w' A B C D c c' SM tsamples size (repeat 0 128) (repeat 0 (N.to_nat (size / 2))) 0) as [(a & n & E1 & E2)|[(why & E1 & E2)|[E1 E2]]]; rewrite E1 in E; [|discriminate|discriminate].
  injection E as <- <-. rewrite E2. eauto.
Qed.
Example C73_filltree2_bits_ex :
  match filltree2 (fun k => nth k [0x1234; 0xABCD; 0x55AA; 0x0F1E] 0) 8 16 2 0, filltree2 (fun k => nth k [0xABCD1234; 0x0F1E55AA] 0) 8 32 2 0 with
  | Ok (Some a, _), Ok (Some b, _) => a = b /\ total (fst a) = 2 | _, _ => False end.
Proof. vm_compute. split; reflexivity. Qed.

Print Assumptions C47_filltree_partial.
Print Assumptions C47_zeros_refuted.
Print Assumptions C47_stuck_refuted.
Print Assumptions C47_few_refuted.
Print Assumptions C73_filltree2.
Print Assumptions C73_filltree2_bits.
Print Assumptions C48_rotation_partial.
Print Assumptions C48_injective_partial.
Print Assumptions C48_undefined_refuted.
Print Assumptions C48_filltree_refuted.
Print Assumptions C48_dct_refuted.
Print Assumptions C48_dct_partial.
Print Assumptions C48_dct_few_refuted.
