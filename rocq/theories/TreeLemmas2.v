From Coq Require Import FinFun.
From Verif Require Import BaseLemmas TallyLemmas MissingLemmas TreeModel TreeSpec TreeLemmas.
Open Scope N_scope.

(** Number of the marked cells among a set of positions. *)
Definition filled (P : list nat) (arr : list N) : N := countp (fun p => negb (nth p arr 0 =? 0)) P.
Lemma filled_set : forall P arr p x, NoDup P -> In p P -> (p < length arr)%nat -> nth p arr 0 = 0 -> x <> 0 ->
  filled P (set_nth arr p x) = filled P arr + 1.
Proof.
  intros P arr p x ND I L Z X. unfold filled. induction P as [|q P IH]; [destruct I|]. inversion ND; subst. cbn [countp].
  destruct I as [->|I].
  - rewrite nth_set_nth_eq, Z by exact L. rewrite (proj2 (N.eqb_neq x 0)) by exact X. cbn [negb N.eqb].
    rewrite (countp_ext _ _ (fun p => negb (nth p arr 0 =? 0)) P); [lia|]. intros q I. rewrite nth_set_nth_ne; [reflexivity|]. intros ->. contradiction.
  - rewrite IH by assumption. rewrite nth_set_nth_ne; [lia|]. intros ->. contradiction.
Qed.
Definition cells : list nat := filter (fun p => negb (Nat.eqb p 63)) (seq 0 127).
Lemma cells_NoDup : NoDup cells.
Proof. apply NoDup_filter, seq_NoDup. Qed.
Lemma cells_length : length cells = 126%nat.
Proof. vm_compute. reflexivity. Qed.
Lemma node_cells : forall k i, (k < 6)%nat -> node 7 k i -> In (N.to_nat i) cells.
Proof.
  intros k i K (a & E & B). change (2 ^ N.of_nat 7) with 128 in B. apply filter_In. split; [apply in_seq; lia|].
  apply negb_true_iff, Nat.eqb_neq. intro C. assert (E2 : i + 1 = 64) by lia. rewrite E2 in E. clear - K E.
  change 64 with (2 ^ 6) in E. replace 6 with (N.of_nat k + N.succ (5 - N.of_nat k)) in E by lia.
  rewrite N.pow_add_r, N.pow_succ_r' in E. apply N.mul_cancel_l in E; [lia|apply N.pow_nonzero; discriminate].
Qed.

Section Generator.
Variable g : nat -> N.
Variable w : N.

Lemma path_ok : forall k f arr i s, (k < 6)%nat -> (k < f)%nat -> length arr = 128%nat -> node 7 (S k) i ->
  exists ret arr' s', path g f w arr i (2 ^ N.of_nat k) s = Ok (ret, arr', s') /\ length arr' = 128%nat /\
    ((ret = (-1)%Z /\ filled cells arr' = filled cells arr + 1) \/ (exists r, ret = Z.of_N r /\ r <= 126 /\ r mod 2 = 0 /\ arr' = arr)).
Proof.
  induction k as [|k IH]; intros f arr i s K6 KF LA NI; (destruct f as [|f]; [lia|]); cbn [path]; unfold insert_bit.
  - destruct (node_kids 7 0 i ltac:(lia) NI) as (K1 & K2 & K3); pose proof (node_lt _ _ _ K1) as N1; pose proof (node_lt _ _ _ K2) as N2; change (2 ^ N.of_nat 7) with 128 in N1, N2.
    change (2 ^ N.of_nat 0) with 1 in *. change (1 / 2) with 0.
    assert (A1 : add32 i 1 = i + 1) by (unfold add32; apply w32_small; lia).
    assert (A2 : sub32 i 1 = i - 1) by (apply sub32_small; lia). rewrite A1, A2.
    set (j := if negb (N.land (fst (fst s)) 1 =? 0) then i + 1 else i - 1).
    assert (NJ : node 7 0 j) by (unfold j; destruct (negb _); assumption).
    assert (JB : j <= 126) by (unfold j; destruct (negb _); lia). clearbody j.
    rewrite (aget_ok arr _ 0) by lia. cbn [bind]. replace (Z.to_nat (Z.of_N j)) with (N.to_nat j) by lia.
    destruct (N.eqb_spec (nth (N.to_nat j) arr 0) 0) as [Z0|Z0].
    + rewrite aset_ok by lia. cbn [bind]. replace (Z.to_nat (Z.of_N j)) with (N.to_nat j) by lia.
      cbn [Z.eqb]. eexists _, _, _. split; [reflexivity|]. split; [rewrite set_nth_length; exact LA|]. left. split; [reflexivity|].
      apply filled_set; [apply cells_NoDup|apply (node_cells 0); [lia|exact NJ]|lia|exact Z0|discriminate].
    + cbn [N.eqb bind]. rewrite (proj2 (Z.eqb_neq (Z.of_N j) (-2))) by lia. eexists _, _, _. split; [reflexivity|]. split; [exact LA|].
      right. exists j. split; [reflexivity|]. split; [exact JB|]. split; [apply (leaf_even 7); exact NJ|reflexivity].
  - destruct (node_kids 7 (S k) i ltac:(lia) NI) as (K1 & K2 & K3); pose proof (node_lt _ _ _ K1) as N1; pose proof (node_lt _ _ _ K2) as N2; change (2 ^ N.of_nat 7) with 128 in N1, N2.
    assert (D : 2 ^ N.of_nat (S k) / 2 = 2 ^ N.of_nat k) by (rewrite pow_S, N.mul_comm; apply N.div_mul; discriminate). rewrite D.
    assert (A1 : add32 i (2 ^ N.of_nat (S k)) = i + 2 ^ N.of_nat (S k)) by (unfold add32; apply w32_small; lia).
    assert (A2 : sub32 i (2 ^ N.of_nat (S k)) = i - 2 ^ N.of_nat (S k)) by (apply sub32_small; lia). rewrite A1, A2.
    set (j := if negb (N.land (fst (fst s)) 1 =? 0) then i + 2 ^ N.of_nat (S k) else i - 2 ^ N.of_nat (S k)).
    assert (NJ : node 7 (S k) j) by (unfold j; destruct (negb _); assumption).
    assert (JB : j <= 126) by (unfold j; destruct (negb _); lia). clearbody j.
    rewrite (aget_ok arr _ 0) by lia. cbn [bind]. replace (Z.to_nat (Z.of_N j)) with (N.to_nat j) by lia.
    destruct (N.eqb_spec (nth (N.to_nat j) arr 0) 0) as [Z0|Z0].
    + rewrite aset_ok by lia. cbn [bind]. replace (Z.to_nat (Z.of_N j)) with (N.to_nat j) by lia.
      cbn [Z.eqb]. eexists _, _, _. split; [reflexivity|]. split; [rewrite set_nth_length; exact LA|]. left. split; [reflexivity|].
      apply filled_set; [apply cells_NoDup|apply (node_cells (S k)); [lia|exact NJ]|lia|exact Z0|discriminate].
    + rewrite (proj2 (N.eqb_neq (2 ^ N.of_nat k) 0)) by (apply N.pow_nonzero; discriminate). cbn [bind Z.eqb Pos.eqb].
      apply IH; [lia|lia|exact LA|exact NJ].
Qed.

Lemma tree2_ok : forall f arr i s, length arr = 128%nat -> filled cells arr = i -> i + N.of_nat f = 258 ->
  exists r n s', tree2 g f 128 w arr i s = Ok (Some (Z.of_N r, n), s') /\ r <= 126 /\ r mod 2 = 0 /\ i + 1 <= n /\ n <= 127.
Proof.
  induction f as [|f IH]; intros arr i s LA FI FU.
  all: assert (I126 : i <= 126) by (rewrite <- FI; unfold filled; etransitivity; [apply countp_le|]; rewrite cells_length; reflexivity).
  - lia.
  - cbn [tree2]. change (128 * 2) with 256. rewrite (proj2 (N.ltb_ge 256 i)) by lia. change (128 / 2 - 1) with 63. change ((63 + 1) / 2) with (2 ^ N.of_nat 5).
    destruct (path_ok 5 33 arr 63 s ltac:(lia) ltac:(lia) LA) as (ret & arr' & s' & E & LA' & [[R F]|(r & R & RB & RE & A)]); [exists 0; split; reflexivity| |].
    + rewrite E. cbn [bind]. rewrite R. cbn [Z.eqb Pos.eqb].
      destruct (IH arr' (i + 1) s' LA' ltac:(lia) ltac:(lia)) as (r & n & s2 & E2 & A1 & A2 & A3 & A4). exists r, n, s2. split; [exact E2|]. repeat split; auto; lia.
    + rewrite E. cbn [bind]. rewrite R, (proj2 (Z.eqb_neq (Z.of_N r) (-1))) by lia. exists r, (i + 1), s'. split; [reflexivity|]. repeat split; auto; lia.
Qed.
End Generator.

(** ** Only the bits count *)
Section Streams.
Variables (g g' : nat -> N) (w w' : N).
Hypothesis w1 : 1 <= w.
Hypothesis w2 : w <= 32.
Hypothesis w1' : 1 <= w'.
Hypothesis w2' : w' <= 32.
Variables (c c' : nat).
Hypothesis same : forall n, lsb_stream (fun k => g (c + k)%nat) w n = lsb_stream (fun k => g' (c' + k)%nat) w' n.

(** State of the source after n bits. *)
Definition at_bit (g : nat -> N) (w : N) (c n : nat) : bits :=
  (N.shiftr (g (c + n / N.to_nat w)%nat) (N.of_nat n mod w), w - N.of_nat n mod w, S (c + n / N.to_nat w)).
Lemma next_at : forall g w c n, 1 <= w -> w <= 32 -> next_bit g w (at_bit g w c n) = at_bit g w c (S n).
Proof.
  intros h v d n V1 V2. unfold at_bit, next_bit.
  assert (M : N.of_nat n mod v < v) by (apply N.mod_lt; lia).
  assert (DM : N.of_nat n = v * (N.of_nat n / v) + N.of_nat n mod v) by (apply N.div_mod'; lia).
  assert (ND : (n / N.to_nat v)%nat = N.to_nat (N.of_nat n / v)) by (rewrite N2Nat.inj_div, Nat2N.id; reflexivity).
  assert (ND2 : (S n / N.to_nat v)%nat = N.to_nat (N.of_nat (S n) / v)) by (rewrite N2Nat.inj_div, Nat2N.id; reflexivity).
  rewrite ND, ND2. generalize dependent (N.of_nat n mod v). intros m M DM. generalize dependent (N.of_nat n / v). intros q DM ND.
  rewrite (sub32_small (v - m) 1) by lia.
  destruct (N.eqb_spec (v - m - 1) 0) as [Z|Z].
  - assert (Q : N.of_nat (S n) / v = q + 1) by (symmetry; apply (N.div_unique _ _ _ 0); nia).
    assert (R : N.of_nat (S n) mod v = 0) by (symmetry; apply (N.mod_unique _ _ (q + 1)); nia).
    rewrite Q, R. rewrite N.shiftr_0_r, N.sub_0_r. replace (d + N.to_nat (q + 1))%nat with (S (d + N.to_nat q)) by lia. reflexivity.
  - assert (Q : N.of_nat (S n) / v = q) by (symmetry; apply (N.div_unique _ _ _ (m + 1)); lia).
    assert (R : N.of_nat (S n) mod v = m + 1) by (symmetry; apply (N.mod_unique _ _ q); lia).
    rewrite Q, R. rewrite N.shiftr_shiftr. replace (v - m - 1) with (v - (m + 1)) by lia. reflexivity.
Qed.
Lemma low_bit : forall g w c n, N.land (fst (fst (at_bit g w c n))) 1 = N.b2n (lsb_stream (fun k => g (c + k)%nat) w n).
Proof.
  intros h v d n. unfold at_bit, lsb_stream. cbn [fst]. change 1 with (N.ones 1). rewrite N.land_ones. change (2 ^ 1) with 2.
  rewrite <- N.bit0_mod, N.shiftr_spec', N.add_0_l. reflexivity.
Qed.

Definition agree {A} (r r' : outcome (A * bits)) : Prop :=
  (exists a n, r = Ok (a, at_bit g w c n) /\ r' = Ok (a, at_bit g' w' c' n)) \/ (exists why, r = UB why /\ r' = UB why) \/ (r = OutOfFuel /\ r' = OutOfFuel).
Lemma insert_bit_cases : forall x arr i d, (exists v, insert_bit x arr i d = Ok v) \/ (exists why, insert_bit x arr i d = UB why).
Proof.
  intros. unfold insert_bit, aget. destruct (_ <? 0)%Z; [right; eexists; reflexivity|]. destruct (nth_error _ _); cbn [bind]; [|eauto].
  destruct (_ =? 0); [|destruct (_ =? 0); eauto]. unfold aset. destruct (_ <? 0)%Z; cbn [bind]; [eauto|]. destruct (Nat.ltb _ _); cbn [bind]; eauto.
Qed.
Lemma path_agree : forall f arr i d n, agree (path g f w arr i d (at_bit g w c n)) (path g' f w' arr i d (at_bit g' w' c' n)).
Proof.
  induction f as [|f IH]; intros arr i d n; [right; right; split; reflexivity|]. cbn [path]. rewrite !low_bit, same.
  destruct (insert_bit_cases (N.b2n (lsb_stream (fun k => g' (c' + k)%nat) w' n)) arr i d) as [([[[ret arr'] i'] d'] & E)|(why & E)]; rewrite E; cbn [bind].
  - rewrite !next_at by assumption. destruct (ret =? -2)%Z; [apply IH|]. left. eauto.
  - right. left. eauto.
Qed.
Lemma tree2_agree : forall f size arr i n, agree (tree2 g f size w arr i (at_bit g w c n)) (tree2 g' f size w' arr i (at_bit g' w' c' n)).
Proof.
  induction f as [|f IH]; intros size arr i n; [right; right; split; reflexivity|]. cbn [tree2].
  destruct (size * 2 <? i); [left; eauto|].
  destruct (path_agree 33 arr (size / 2 - 1) ((size / 2 - 1 + 1) / 2) n) as [([ret arr'] & m & E & E')|[(why & E & E')|[E E']]]; rewrite E, E'; cbn [bind].
  - destruct (ret =? -1)%Z; [apply IH|]. left. eauto.
  - right. left. eauto.
  - right. right. auto.
Qed.
Lemma bump_cases : forall t i, (exists v, bump t i = Ok v) \/ (exists why, bump t i = UB why).
Proof.
  intros t i. destruct (Z.ltb_spec i 0); [right; apply bump_bad; lia|]. destruct (Z.ltb_spec i (Z.of_nat (length t))); [left; rewrite bump_ok by lia; eauto|right; apply bump_bad; lia].
Qed.
Lemma trees2_agree : forall r size counts pos n, agree (trees2 g r size w counts pos (at_bit g w c n)) (trees2 g' r size w' counts pos (at_bit g' w' c' n)).
Proof.
  induction r as [|r IH]; intros size counts pos n; cbn [trees2]; [left; eauto|].
  destruct (tree2_agree (N.to_nat (size * 2) + 2) size (repeat 0 (N.to_nat size)) 0 n) as [(e & m & E & E')|[(why & E & E')|[E E']]]; rewrite E, E'; cbn [bind].
  - destruct e as [[ret i]|]; [|left; eauto].
    destruct (bump_cases pos (Z.quot ret 2)) as [(p2 & B)|(why & B)]; rewrite B; cbn [bind]; [|right; left; eauto].
    destruct (bump_cases counts (Z.of_N i - 1)) as [(c2 & B2)|(why & B2)]; rewrite B2; cbn [bind]; [apply IH|right; left; eauto].
  - right. left. eauto.
  - right. right. auto.
Qed.
End Streams.
