(** Lemmas about Base.v *)
From Verif Require Export Base.
(** [lia] that also understands / and mod by constants. *)
Ltac dlia := zify; Z.div_mod_to_equations; lia.
Open Scope N_scope.

Lemma w32_lt x : w32 x < 2 ^ 32.
Proof. unfold w32. apply N.mod_lt. discriminate. Qed.
Lemma w64_lt x : w64 x < 2 ^ 64.
Proof. unfold w64. apply N.mod_lt. discriminate. Qed.
Lemma w32_small x : x < 2 ^ 32 -> w32 x = x.
Proof. apply N.mod_small. Qed.
Lemma w64_small x : x < 2 ^ 64 -> w64 x = x.
Proof. apply N.mod_small. Qed.

Lemma testbit_mod x n i : N.testbit (x mod 2 ^ n) i = (i <? n) && N.testbit x i.
Proof.
  destruct (N.ltb_spec i n).
  - rewrite N.mod_pow2_bits_low; auto.
  - rewrite N.mod_pow2_bits_high; auto.
Qed.
Lemma testbit_w32 x i : N.testbit (w32 x) i = (i <? 32) && N.testbit x i.
Proof. apply testbit_mod. Qed.
Lemma testbit_w64 x i : N.testbit (w64 x) i = (i <? 64) && N.testbit x i.
Proof. apply testbit_mod. Qed.
Lemma testbit_shiftl x s i :
  N.testbit (N.shiftl x s) i = (s <=? i) && N.testbit x (i - s).
Proof.
  destruct (N.leb_spec s i).
  - rewrite N.shiftl_spec_high'; auto.
  - rewrite N.shiftl_spec_low; auto.
Qed.
Lemma testbit_shiftr x s i : N.testbit (N.shiftr x s) i = N.testbit x (i + s).
Proof. apply N.shiftr_spec'. Qed.
Lemma testbit_ones n i : N.testbit (N.ones n) i = (i <? n).
Proof.
  destruct (N.ltb_spec i n).
  - apply N.ones_spec_low; auto.
  - apply N.ones_spec_high; auto.
Qed.
Lemma testbit_lt x n i : x < 2 ^ n -> n <= i -> N.testbit x i = false.
Proof.
  intros Hx Hi. rewrite <- (N.mod_small x (2 ^ n)) by auto.
  apply N.mod_pow2_bits_high; auto.
Qed.
Lemma testbit_lt32 x i : x < 2 ^ 32 -> 32 <= i -> N.testbit x i = false.
Proof. apply testbit_lt. Qed.

Lemma lt_pow2_testbit x n : (forall i, n <= i -> N.testbit x i = false) -> x < 2 ^ n.
Proof.
  intros H. destruct (N.eq_dec x (x mod 2 ^ n)) as [E|E].
  - rewrite E. apply N.mod_lt. apply N.pow_nonzero; discriminate.
  - exfalso. apply E. apply N.bits_inj. intro i. rewrite testbit_mod.
    destruct (N.ltb_spec i n); simpl; auto.
Qed.

(** Addition of numbers with disjoint bits is bitwise or. *)
Lemma add_lor_disjoint a b : N.land a b = 0 -> a + b = N.lor a b.
Proof. intros H. rewrite N.add_nocarry_lxor by auto. rewrite <- N.lxor_lor; auto. Qed.

Lemma land0_testbit a b :
  (forall i, N.testbit a i && N.testbit b i = false) -> N.land a b = 0.
Proof. intros H. apply N.bits_inj. intro i. rewrite N.land_spec, N.bits_0. apply H. Qed.

Lemma testbit_add_disjoint a b i :
  (forall i, N.testbit a i && N.testbit b i = false) ->
  N.testbit (a + b) i = N.testbit a i || N.testbit b i.
Proof.
  intros H. rewrite add_lor_disjoint by (apply land0_testbit; auto).
  apply N.lor_spec.
Qed.

Lemma u32_of_Z_small z : (0 <= z < 2 ^ 32)%Z -> u32_of_Z z = Z.to_N z.
Proof. intros H. unfold u32_of_Z. rewrite Z.mod_small by auto. reflexivity. Qed.
Lemma u32_of_Z_lt z : u32_of_Z z < 2 ^ 32.
Proof.
  unfold u32_of_Z. assert (0 <= z mod 2 ^ 32 < 2 ^ 32)%Z by (apply Z.mod_pos_bound; reflexivity).
  change (2 ^ 32) with (Z.to_N (2 ^ 32)%Z). apply Z2N.inj_lt; lia.
Qed.
Lemma u32_of_Z_neg z : (- 2 ^ 32 <= z < 0)%Z -> u32_of_Z z = Z.to_N (z + 2 ^ 32).
Proof.
  intros H. unfold u32_of_Z. f_equal.
  rewrite <- (Z.mod_small (z + 2 ^ 32) (2 ^ 32)) by lia.
  rewrite <- (Z.add_mod_idemp_r z) by discriminate. rewrite Z_mod_same_full, Z.add_0_r.
  reflexivity.
Qed.
Lemma sub32_small a b : b <= a -> a < 2 ^ 32 -> sub32 a b = a - b.
Proof.
  intros Hb Ha. unfold sub32. rewrite u32_of_Z_small.
  - rewrite <- N2Z.inj_sub by auto. apply N2Z.id.
  - change (2 ^ 32)%Z with (Z.of_N (2 ^ 32)). lia.
Qed.

Lemma shl32_ok x s : s < 32 -> shl32 x s = Ok (w32 (N.shiftl x s)).
Proof. intros H. unfold shl32. apply N.ltb_lt in H. rewrite H. reflexivity. Qed.
Lemma shr32_ok x s : s < 32 -> shr32 x s = Ok (N.shiftr x s).
Proof. intros H. unfold shr32. apply N.ltb_lt in H. rewrite H. reflexivity. Qed.

(** ** Arrays *)
Close Scope N_scope.
Lemma set_nth_length {A} (l : list A) n a : length (set_nth l n a) = length l.
Proof. revert n; induction l as [|h t IH]; intros [|n]; simpl; auto. Qed.
Lemma nth_error_set_nth_eq {A} (l : list A) n a :
  n < length l -> nth_error (set_nth l n a) n = Some a.
Proof. revert n; induction l as [|h t IH]; intros [|n]; simpl; intros; try lia; auto. apply IH; lia. Qed.
Lemma nth_error_set_nth_ne {A} (l : list A) n m a :
  n <> m -> nth_error (set_nth l n a) m = nth_error l m.
Proof.
  revert n m; induction l as [|h t IH]; intros [|n] [|m]; simpl; intros; auto; try lia.
Qed.
Lemma nth_set_nth_eq {A} (l : list A) n a d :
  n < length l -> nth n (set_nth l n a) d = a.
Proof. revert n; induction l as [|h t IH]; intros [|n]; simpl; intros; try lia; auto. apply IH; lia. Qed.
Lemma nth_set_nth_ne {A} (l : list A) n m a d :
  n <> m -> nth m (set_nth l n a) d = nth m l d.
Proof.
  revert n m; induction l as [|h t IH]; intros [|n] [|m]; simpl; intros; auto; try lia.
Qed.
Lemma aget_ok {A} (l : list A) i d :
  (0 <= i)%Z -> Z.to_nat i < length l -> aget l i = Ok (nth (Z.to_nat i) l d).
Proof.
  intros Hi Hl. unfold aget. destruct (Z.ltb_spec i 0); [lia|].
  rewrite (nth_error_nth' l d) by auto. reflexivity.
Qed.
Lemma aget_inv {A} (l : list A) i a :
  aget l i = Ok a -> (0 <= i)%Z /\ Z.to_nat i < length l /\ nth_error l (Z.to_nat i) = Some a.
Proof.
  unfold aget. destruct (Z.ltb_spec i 0); [discriminate|].
  destruct (nth_error l (Z.to_nat i)) eqn:E; [|discriminate].
  intros [= <-]. split; [auto|split; auto]. apply nth_error_Some. congruence.
Qed.
Lemma aset_ok {A} (l : list A) i a :
  (0 <= i)%Z -> Z.to_nat i < length l -> aset l i a = Ok (set_nth l (Z.to_nat i) a).
Proof.
  intros Hi Hl. unfold aset. destruct (Z.ltb_spec i 0); [lia|].
  destruct (Nat.ltb_spec (Z.to_nat i) (length l)); [auto|lia].
Qed.

Lemma bind_ok {A B} (x : outcome A) (f : A -> outcome B) b :
  bind x f = Ok b -> exists a, x = Ok a /\ f a = Ok b.
Proof. destruct x; simpl; try discriminate. eauto. Qed.
