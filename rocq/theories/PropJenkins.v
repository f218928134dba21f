(** Theorem C149: the Jenkins hash as a generator. *)
From Coq Require Import Lia.
From Verif Require Export JenkinsModel JenkinsSpec.
From Verif Require Import BaseLemmas WordDigits PropSphere.
Open Scope N_scope.

Definition start : N := 3142117697.
(** the k-th number: the hash of k+1 zero bytes *)
Definition number (k : nat) : N := one_at_a_time start (repeat 0 (S k)).

Lemma shifted_sum x k : x < 2 ^ 32 -> add32 x (w32 (N.shiftl x k)) = ((1 + 2 ^ k) * x) mod 2 ^ 32.
Proof.
  intro X. unfold add32, w32. rewrite N.shiftl_mul_pow2. rewrite N.add_mod_idemp_r by discriminate. f_equal. lia.
Qed.
Lemma step_byte a : a < 2 ^ 32 -> jenkins_step a = oaat_byte a 0.
Proof.
  intro A. unfold jenkins_step, oaat_byte. assert (E : add32 a 0 = (a + 0) mod 2 ^ 32) by reflexivity. rewrite E. set (x := (a + 0) mod 2 ^ 32). assert (X : x < 2 ^ 32) by (apply N.mod_lt; discriminate).
  rewrite shifted_sum by exact X. change (1 + 2 ^ 10) with 1025. now rewrite N.shiftr_div_pow2.
Qed.
Lemma out_end a : a < 2 ^ 32 -> jenkins_out a = oaat_end a.
Proof.
  intro A. unfold jenkins_out, oaat_end. rewrite (shifted_sum a 3) by exact A. change (1 + 2 ^ 3) with 9. set (x := (9 * a) mod 2 ^ 32). assert (X : x < 2 ^ 32) by (apply N.mod_lt; discriminate).
  rewrite N.shiftr_div_pow2. apply (shifted_sum _ 15). apply lxor_lt; [exact X|]. apply N.le_lt_trans with x; [apply N.div_le_upper_bound; [discriminate|]; change (2 ^ 11) with 2048; lia|exact X].
Qed.
Lemma byte_lt a b : oaat_byte a b < 2 ^ 32.
Proof.
  unfold oaat_byte. set (x := (1025 * _) mod 2 ^ 32). assert (X : x < 2 ^ 32) by (apply N.mod_lt; discriminate). apply lxor_lt; [exact X|]. apply N.le_lt_trans with x; [apply N.div_le_upper_bound; [discriminate|]; change (2 ^ 6) with 64; lia|exact X].
Qed.
(** The program writes the hashes of 1, 2, 3, ... zero bytes, and ends with status
    1 when it can no longer write. *)
Theorem C149_hash : forall room, jenkins_main room = (map number (seq 0 room), 1%Z).
Proof.
  intro room. unfold jenkins_main.
  assert (H : forall r k a, a < 2 ^ 32 -> a = fold_left oaat_byte (repeat 0 k) start -> jenkins_loop r a = (map number (seq k r), 1%Z)).
  { induction r as [|r IH]; intros k a A E; [reflexivity|]. cbn [jenkins_loop seq map].
    assert (ES : jenkins_step a = fold_left oaat_byte (repeat 0 (S k)) start). { rewrite step_byte by exact A. rewrite E. replace (repeat 0 (S k)) with (repeat 0 k ++ [0]) by (symmetry; apply (repeat_cons k 0)). now rewrite fold_left_app. }
    assert (B : jenkins_step a < 2 ^ 32) by (rewrite step_byte by exact A; apply byte_lt).
    rewrite (IH (S k) (jenkins_step a) B ES). rewrite out_end by exact B. rewrite ES. reflexivity. }
  apply (H room 0%nat); [vm_compute|]; reflexivity.
Qed.

(** ** Every number determines the rest of the sequence *)
Lemma xorshift_inj k x y : 0 < k -> N.lxor x (x / 2 ^ k) = N.lxor y (y / 2 ^ k) -> x = y.
Proof.
  intros K E. rewrite <- !N.shiftr_div_pow2 in E. set (z := N.lxor x y).
  assert (Z : z = z / 2 ^ k).
  { rewrite <- N.shiftr_div_pow2. unfold z. apply N.bits_inj. intro i. apply (f_equal (fun v => N.testbit v i)) in E. rewrite N.shiftr_lxor, !N.lxor_spec. rewrite !N.lxor_spec in E.
    destruct (N.testbit x i), (N.testbit y i), (N.testbit (N.shiftr x k) i), (N.testbit (N.shiftr y k) i); cbn in *; congruence. }
  apply N.lxor_eq. fold z. destruct (N.eq_dec z 0) as [|NZ]; [assumption|]. exfalso.
  assert (z / 2 ^ k < z); [|lia]. apply N.div_lt; [lia|]. apply N.pow_gt_1; lia.
Qed.
Lemma odd_inj c d x y : (c * d) mod 2 ^ 32 = 1 -> x < 2 ^ 32 -> y < 2 ^ 32 -> (c * x) mod 2 ^ 32 = (c * y) mod 2 ^ 32 -> x = y.
Proof.
  intros I X Y E. assert (H : forall z, z < 2 ^ 32 -> (d * ((c * z) mod 2 ^ 32)) mod 2 ^ 32 = z).
  { intros z Z. rewrite N.mul_mod_idemp_r by discriminate. replace (d * (c * z)) with (c * d * z) by lia. rewrite <- N.mul_mod_idemp_l by discriminate. rewrite I, N.mul_1_l. now apply N.mod_small. }
  rewrite <- (H x X), <- (H y Y), E. reflexivity.
Qed.
Lemma step_inj a b : a < 2 ^ 32 -> b < 2 ^ 32 -> oaat_byte a 0 = oaat_byte b 0 -> a = b.
Proof.
  intros A B E. unfold oaat_byte in E. rewrite !N.add_0_r in E. rewrite (N.mod_small a) in E by exact A. rewrite (N.mod_small b) in E by exact B.
  apply xorshift_inj in E; [|reflexivity]. now apply (odd_inj 1025 3222273025) in E.
Qed.
Lemma end_inj a b : a < 2 ^ 32 -> b < 2 ^ 32 -> oaat_end a = oaat_end b -> a = b.
Proof.
  intros A B E. unfold oaat_end in E. assert (L : forall x, N.lxor ((9 * x) mod 2 ^ 32) ((9 * x) mod 2 ^ 32 / 2 ^ 11) < 2 ^ 32).
  { intro x. set (y := (9 * x) mod 2 ^ 32). assert (Y : y < 2 ^ 32) by (apply N.mod_lt; discriminate). apply lxor_lt; [exact Y|]. apply N.le_lt_trans with y; [apply N.div_le_upper_bound; [discriminate|]; change (2 ^ 11) with 2048; lia|exact Y]. }
  apply (odd_inj 32769 1073709057) in E; [|reflexivity|apply L|apply L]. apply xorshift_inj in E; [|reflexivity]. now apply (odd_inj 9 954437177) in E.
Qed.

(** the value of a after k+1 rounds *)
Definition hashed (k : nat) : N := fold_left oaat_byte (repeat 0 k) start.
Lemma hashed_S k : hashed (S k) = oaat_byte (hashed k) 0.
Proof. unfold hashed. replace (repeat 0 (S k)) with (repeat 0 k ++ [0]) by (symmetry; apply (repeat_cons k 0)). now rewrite fold_left_app. Qed.
Lemma hashed_lt k : hashed k < 2 ^ 32.
Proof. destruct k; [vm_compute; reflexivity|]. rewrite hashed_S. apply byte_lt. Qed.
Lemma number_hashed i j : number i = number j <-> hashed i = hashed j.
Proof.
  assert (N : forall k, number k = oaat_end (hashed (S k))) by reflexivity. rewrite !N. split; intro E.
  - apply end_inj in E; try apply hashed_lt. rewrite !hashed_S in E. now apply step_inj in E; try apply hashed_lt.
  - now rewrite !hashed_S, E.
Qed.
Lemma hashed_back i j : hashed i = hashed (i + j) -> hashed 0 = hashed j.
Proof.
  induction i as [|i IH]; [exact (fun E => E)|]. intro E. apply IH. cbn [Nat.add] in E. rewrite !hashed_S in E. now apply step_inj in E; try apply hashed_lt.
Qed.
Lemma hashed_on d k : hashed 0 = hashed d -> hashed k = hashed (k + d).
Proof. intro E. induction k as [|k IH]; [exact E|]. cbn [Nat.add]. now rewrite !hashed_S, IH. Qed.
Lemma hashed_nz k : hashed k <> 0.
Proof.
  intro E. assert (H : hashed k = oaat_byte 0 0) by (rewrite E; reflexivity). destruct k as [|k]; [discriminate E|].
  revert E. clear H. induction k as [|k IH]; [vm_compute; discriminate|]. intro E. apply IH. apply (step_inj _ 0); [apply hashed_lt|reflexivity|]. rewrite <- hashed_S, E. reflexivity.
Qed.
(** The sequence of numbers is periodic from the first number on, no number occurs
    twice in a period, and none is 0. *)
Theorem C149_period : exists p, (0 < N.of_nat p < 2 ^ 32) /\ (forall k, number (k + p) = number k) /\
  (forall i j, (i < j < p)%nat -> number i <> number j).
Proof.
  assert (R : exists d, (0 < d)%nat /\ N.of_nat d < 2 ^ 32 /\ hashed 0 = hashed d).
  { assert (G : forall m : nat, N.of_nat m = 2 ^ 32 -> exists d, (0 < d)%nat /\ N.of_nat d < 2 ^ 32 /\ hashed 0 = hashed d).
    { intros m M. destruct (pigeonhole N.eq_dec hashed (map N.of_nat (seq 1 (m - 1))) (seq 0 m)) as (a & b & T & E).
      - intros a _. apply in_map_iff. exists (N.to_nat (hashed a)). split; [apply N2Nat.id|]. apply in_seq. pose proof (hashed_lt a). pose proof (hashed_nz a). lia.
      - rewrite map_length, !seq_length. lia.
      - destruct T as (i & j & IJ & TA & TB). assert (nth_seq : forall t x, nth_error (seq 0 m) t = Some x -> x = t /\ (t < m)%nat).
        { intros t x X. assert (T0 : (t < m)%nat) by (rewrite <- (seq_length m 0); apply nth_error_Some; congruence). split; [|exact T0].
          rewrite (nth_error_nth' (seq 0 m) 0%nat) in X by (rewrite seq_length; exact T0). rewrite seq_nth in X by exact T0. now inversion X. }
        destruct (nth_seq i a TA) as (-> & _). destruct (nth_seq j b TB) as (-> & JM). exists (j - i)%nat. split; [lia|]. split; [lia|]. apply (hashed_back i). replace (i + (j - i))%nat with j by lia. exact E. }
    apply (G (N.to_nat (2 ^ 32))). apply N2Nat.id. }
  destruct R as (d & D0 & D & E).
  assert (L : exists p, (0 < p <= d)%nat /\ hashed 0 = hashed p /\ forall q, (0 < q < p)%nat -> hashed 0 <> hashed q).
  { clear D. assert (H : forall m, (m <= d)%nat -> (exists p, (0 < p <= d)%nat /\ hashed 0 = hashed p /\ forall q, (0 < q < p)%nat -> hashed 0 <> hashed q) \/ forall q, (0 < q <= m)%nat -> hashed 0 <> hashed q).
    { induction m as [|m IH]; intro M; [right; intros; lia|]. destruct (IH ltac:(lia)) as [X|X]; [now left|]. destruct (N.eq_dec (hashed 0) (hashed (S m))) as [Y|Y].
      - left. exists (S m). split; [lia|]. split; [exact Y|]. intros q Q. apply X. lia.
      - right. intros q Q. destruct (Nat.eq_dec q (S m)) as [->|]; [exact Y|apply X; lia]. }
    destruct (H d ltac:(lia)) as [X|X]; [exact X|]. exfalso. apply (X d); [lia|exact E]. }
  destruct L as (p & P & EP & MIN). exists p. split; [lia|]. split.
  - intro k. apply number_hashed. symmetry. now apply hashed_on.
  - intros i j I EQ. apply number_hashed in EQ. apply (MIN (j - i)%nat); [lia|]. apply (hashed_back i). replace (i + (j - i))%nat with j by lia. exact EQ.
Qed.
Theorem C149_nonzero : forall k, number k <> 0.
Proof.
  intros k E. apply (hashed_nz (S k)). apply end_inj; [apply hashed_lt|reflexivity|]. exact E.
Qed.
(** Every number determines the next: equal numbers are followed by equal numbers. *)
Theorem C149_next : forall i j, number i = number j -> forall k, number (i + k) = number (j + k).
Proof.
  intros i j E. apply number_hashed in E. intro k. apply number_hashed. induction k as [|k IH]; [now rewrite !Nat.add_0_r|]. rewrite !Nat.add_succ_r, !hashed_S, IH. reflexivity.
Qed.
Example C149_ex : jenkins_main 3 = ([number 0; number 1; number 2], 1%Z) /\ [number 0; number 1; number 2] = [136936370; 3978980529; 3316251542].
Proof. split; vm_compute; reflexivity. Qed.

Print Assumptions C149_hash.
Print Assumptions C149_period.
Print Assumptions C149_nonzero.
Print Assumptions C149_next.
