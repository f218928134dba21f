(** Theorems C36, C65: the count-the-1s tests. *)
From Verif Require Import BaseLemmas TallyLemmas CountOnesModel CountOnesSpec CountOnesLemmas.
Open Scope N_scope.

(** C36: after n samples of the stream test the two tables count the words of
    four and of five letters that end in letters 4, 5, ..., n+3 of the stream;
    every index is inside its table. *)
Theorem C36_stream : forall g, (forall i, g i < 2 ^ 32) -> forall n c, exists x4 x5,
  count_stream g n c = Ok (x4, x5, (c + 1 + (n + 3) / 4)%nat) /\
  length x4 = N.to_nat (5 ^ 4) /\ length x5 = N.to_nat (5 ^ 5) /\
  tallies x4 (map (fun t => Z.of_N (word4 g c t)) (seq 0 n)) /\
  tallies x5 (map (fun t => Z.of_N (word5 g c t)) (seq 0 n)).
Proof. exact count_stream_ok. Qed.
(** The same for the byte test, where every word uses five new numbers. *)
Theorem C36_byte : forall g, (forall i, g i < 2 ^ 32) -> forall n c, exists x4 x5,
  count_byte g n c = Ok (x4, x5, (c + 5 * n)%nat) /\
  length x4 = N.to_nat (5 ^ 4) /\ length x5 = N.to_nat (5 ^ 5) /\
  tallies x4 (map (fun t => Z.of_N (byte_word4 g c t)) (seq 0 n)) /\
  tallies x5 (map (fun t => Z.of_N (byte_word5 g c t)) (seq 0 n)).
Proof. exact count_byte_ok. Qed.
(** So each table holds exactly n counts. *)
Theorem C36_totals : forall g, (forall i, g i < 2 ^ 32) -> forall n c x4 x5 c',
  count_stream g n c = Ok (x4, x5, c') \/ count_byte g n c = Ok (x4, x5, c') ->
  total x4 = N.of_nat n /\ total x5 = N.of_nat n.
Proof.
  intros g B n c x4 x5 c' [E|E].
  - destruct (count_stream_ok g B n c) as (y4 & y5 & E' & _ & _ & T4 & T5). rewrite E in E'. inversion E'; subst.
    rewrite (tallies_total _ _ T4), (tallies_total _ _ T5). unfold cells5. rewrite !map_length, !seq_length. auto.
  - destruct (count_byte_ok g B n c) as (y4 & y5 & E' & _ & _ & T4 & T5). rewrite E in E'. inversion E'; subst.
    rewrite (tallies_total _ _ T4), (tallies_total _ _ T5). unfold cells5. rewrite !map_length, !seq_length. auto.
Qed.
Definition demo (i : nat) : N := (N.of_nat i * 2654435769 + 3735928559) mod 2 ^ 32.
Example C36_ex :
  map (stream_letter demo 0) (seq 0 8) = [4; 4; 3; 4; 1; 1; 3; 3] /\
  word5 demo 0 0 = 4 * 625 + 4 * 125 + 3 * 25 + 4 * 5 + 1 /\
  (exists x4 x5, count_stream demo 10 0 = Ok (x4, x5, 4%nat) /\ nth 3096 x5 0 = 1).
Proof.
  split; [vm_compute; reflexivity|]. split; [vm_compute; reflexivity|].
  do 2 eexists. split; vm_compute; reflexivity.
Qed.

(** ** C65: the expected counts belong to uniformly distributed bytes *)

(** How many of the 256 bytes have the letter [l]. *)
Definition bytes_with (l : N) : N := N.of_nat (length (filter (fun k => letter (N.of_nat k) =? l) (seq 0 256))).
(** Product of the shares of the letters of [i], read as [k] base-5 digits. *)
Fixpoint share (k : nat) (i : N) : Q :=
  match k with
  | O => 1%Q
  | S k' => ((Z.of_N (bytes_with (i mod 5)) # 256) * share k' (i / 5))%Q
  end.

Lemma ps_share : forall l, l < 5 -> exists p, aget ps (Z.of_N l) = Ok p /\ (p == Z.of_N (bytes_with l) # 256)%Q.
Proof.
  intros l H. assert (D : l = 0 \/ l = 1 \/ l = 2 \/ l = 3 \/ l = 4) by lia.
  destruct D as [->|[->|[->|[->| ->]]]]; eexists; (split; [reflexivity|vm_compute; reflexivity]).
Qed.

Theorem C65_expected : forall k tsamples i,
  exists y, expected k tsamples i = Ok y /\ (y == tsamples * share k i)%Q.
Proof.
  induction k as [|k IH]; intros y i; cbn [expected share].
  - exists y. split; [reflexivity|]. ring.
  - destruct (ps_share (i mod 5) ltac:(apply N.mod_lt; discriminate)) as (p & E & P). rewrite E. cbn [bind].
    destruct (IH (y * p)%Q (i / 5)) as (z & F & Z). exists z. split; [exact F|]. rewrite Z, P. ring.
Qed.

(** The expected counts of all cells add up to the number of samples. *)
Fixpoint sumQ (n : nat) (f : N -> Q) : Q := match n with O => 0%Q | S m => (sumQ m f + f (N.of_nat m))%Q end.
Lemma sumQ_ext : forall n f h, (forall k, (f k == h k)%Q) -> (sumQ n f == sumQ n h)%Q.
Proof. induction n; intros f h H; cbn [sumQ]; [reflexivity|]. rewrite (IHn f h H), H. reflexivity. Qed.
Lemma sumQ_scale : forall n f a, (sumQ n (fun k => a * f k) == a * sumQ n f)%Q.
Proof. induction n; intros f a; cbn [sumQ]; [ring|]. rewrite IHn. ring. Qed.
Lemma sumQ_five : forall n f, (sumQ (5 * n) f == sumQ n (fun j => f (5 * j)%N + f (5 * j + 1)%N + f (5 * j + 2)%N + f (5 * j + 3)%N + f (5 * j + 4)%N))%Q.
Proof.
  induction n as [|n IH]; intro f; [reflexivity|].
  replace (5 * S n)%nat with (S (S (S (S (S (5 * n)))))) by lia. cbn [sumQ]. rewrite IH.
  replace (N.of_nat (5 * n)) with (5 * N.of_nat n) by lia.
  replace (N.of_nat (S (5 * n))) with (5 * N.of_nat n + 1) by lia.
  replace (N.of_nat (S (S (5 * n)))) with (5 * N.of_nat n + 2) by lia.
  replace (N.of_nat (S (S (S (5 * n))))) with (5 * N.of_nat n + 3) by lia.
  replace (N.of_nat (S (S (S (S (5 * n)))))) with (5 * N.of_nat n + 4) by lia. ring.
Qed.
Lemma shares_five : ((Z.of_N (bytes_with 0) # 256) + (Z.of_N (bytes_with 1) # 256) + (Z.of_N (bytes_with 2) # 256)
   + (Z.of_N (bytes_with 3) # 256) + (Z.of_N (bytes_with 4) # 256) == 1)%Q.
Proof. vm_compute. reflexivity. Qed.

Theorem C65_sum : forall k, (sumQ (5 ^ k) (share k) == 1)%Q.
Proof.
  induction k as [|k IH]; [vm_compute; reflexivity|]. rewrite Nat.pow_succ_r'. rewrite sumQ_five.
  rewrite (sumQ_ext _ _ (share k)); [exact IH|]. intro j. cbn [share].
  assert (D : forall r, r < 5 -> (5 * j + r) mod 5 = r /\ (5 * j + r) / 5 = j).
  { intros r H. split; [symmetry; apply (N.mod_unique _ 5 j); lia|symmetry; apply (N.div_unique _ 5 _ r); lia]. }
  destruct (D 0 ltac:(lia)) as [A0 B0]. rewrite N.add_0_r in A0, B0.
  destruct (D 1 ltac:(lia)) as [A1 B1]. destruct (D 2 ltac:(lia)) as [A2 B2].
  destruct (D 3 ltac:(lia)) as [A3 B3]. destruct (D 4 ltac:(lia)) as [A4 B4].
  rewrite A0, B0, A1, B1, A2, B2, A3, B3, A4, B4. rewrite <- !Qmult_plus_distr_l, shares_five. ring.
Qed.
Example C65_ex : exists y, expected 4 256000 1 = Ok y /\ (y == 256000 * (37 * 37 * 37 * 56) / (256 * 256 * 256 * 256))%Q.
Proof. eexists. split; [reflexivity|vm_compute; reflexivity]. Qed.

Print Assumptions C36_stream.
Print Assumptions C36_byte.
Print Assumptions C36_totals.
Print Assumptions C65_expected.
Print Assumptions C65_sum.
