(** The law of the first tree-filling test in numbers. *)
From Coq Require Import List Arith Lia Lra Reals QArith Qreals Qabs.
From Verif Require Import TreeStatModel OpermReal RunsArcs TreeOrder.
Import ListNotations.
Open Scope Q_scope.

Definition conv (l : list Q) (n : nat) : Q :=
  Qred (fold_right Qplus 0 (map (fun k => nth k l 0 * nth (n - k) l 0) (seq 0 (S n))) / inject_Z (Z.of_nat (S n))).
Definition next_row (l : list Q) : list Q := 1 :: map (conv l) (seq 0 20).
Fixpoint row (d : nat) : list Q := match d with O => 1 :: repeat 0 20 | S d => next_row (row d) end.

Definition table_diff (r : list Q) (i : nat) : Q := let me := nth i target1 (0, 0)%Z in (nth i r 0 - nth (S i) r 0) - (fst me # Z.to_pos (10 ^ snd me)).
Lemma table1_right : forallb (fun i => Qle_bool (Qabs (table_diff (row 4) i)) (23 # 10000000)) (seq 0 20) = true.
Proof. vm_compute. reflexivity. Qed.
Lemma table1_exact : forallb (fun i => Qle_bool (Qabs (table_diff (row 4) i)) (5 # 1000000000)) (seq 0 8) = true.
Proof. vm_compute. reflexivity. Qed.
Lemma table1_off : Qle_bool (22 # 10000000) (table_diff (row 4) 10) = true.
Proof. vm_compute. reflexivity. Qed.
Lemma row16 : nth 16 (row 4) 0 = 0.
Proof. vm_compute. reflexivity. Qed.

Open Scope R_scope.
Lemma Q2R_sum (f : nat -> Q) : forall n a, Q2R (fold_right Qplus 0 (map f (seq a n)))%Q = rsum n (fun k => Q2R (f (a + k)%nat)).
Proof.
  induction n as [|n IH]; intro a; [cbn; unfold Q2R; cbn; lra|]. rewrite CoinLaw.rsum_first. cbn [seq map fold_right]. rewrite Q2R_plus, IH. rewrite Nat.add_0_r. f_equal. apply rsum_ext. intros k _. now rewrite Nat.add_succ_r.
Qed.
Lemma row_room : forall d n, (n <= 20)%nat -> Q2R (nth n (row d) 0%Q) = room d n.
Proof.
  assert (Q0 : Q2R 0 = 0) by (unfold Q2R; cbn; lra). assert (Q1 : Q2R 1 = 1) by (unfold Q2R; cbn; lra).
  induction d as [|d IH]; intros n H.
  - destruct n as [|n]; [exact Q1|]. cbn [row nth room]. now rewrite nth_repeat.
  - destruct n as [|n]; [exact Q1|]. cbn [row next_row nth room].
    rewrite (nth_indep _ 0%Q (conv (row d) 0)) by (rewrite map_length, seq_length; lia). rewrite map_nth, seq_nth by lia. cbn [Nat.add]. unfold conv. rewrite (Qeq_eqR _ _ (Qred_correct _)).
    rewrite Q2R_div. 2:{ unfold Qeq. cbn. lia. }
    rewrite Q2R_sum. replace (Q2R (inject_Z (Z.of_nat (S n)))) with (INR (S n)) by (rewrite INR_IZR_INZ; unfold Q2R, inject_Z; cbn [Qnum Qden]; field). f_equal.
    apply rsum_ext. intros k K. cbn [Nat.add]. rewrite Q2R_mult, !IH by lia. reflexivity.
Qed.
Lemma diff_real i : (i < 20)%nat -> Q2R (table_diff (row 4) i) = room 4 i - room 4 (S i) - TreeLawSpec.entry target1 i.
Proof.
  intro I. unfold table_diff. cbv zeta. rewrite !Q2R_minus, !row_room by lia. f_equal. unfold TreeLawSpec.entry, Q2R. cbn [Qnum Qden]. unfold Rdiv. do 3 f_equal. apply Z2Pos.id. apply Z.pow_pos_nonneg; [lia|].
  assert (E : forallb (fun me => 0 <=? snd me)%Z ((0, 0)%Z :: target1) = true) by reflexivity. rewrite forallb_forall in E.
  apply Z.leb_le. apply E. destruct (nth_in_or_default i target1 (0, 0)%Z) as [K|K]; [now right|rewrite K; now left].
Qed.
Lemma diff_bound i b : (i < 20)%nat -> Qle_bool (Qabs (table_diff (row 4) i)) b = true -> Rabs (room 4 i - room 4 (S i) - TreeLawSpec.entry target1 i) <= Q2R b.
Proof.
  intros I T. apply Qle_bool_iff in T. apply Qle_Rle in T. rewrite <- diff_real by exact I.
  replace (Rabs (Q2R (table_diff (row 4) i))) with (Q2R (Qabs (table_diff (row 4) i))); [exact T|].
  generalize (table_diff (row 4) i). intro q. apply Qabs_case; intro H; apply Qle_Rle in H; rewrite ?Q2R_opp; replace (Q2R 0) with 0 in H by (unfold Q2R; cbn; lra); [now rewrite Rabs_pos_eq|now rewrite Rabs_left1].
Qed.
Lemma table1_entry i : (i < 20)%nat -> Rabs (room 4 i - room 4 (S i) - TreeLawSpec.entry target1 i) <= 23 / 10 ^ 7.
Proof.
  intro I. replace (23 / 10 ^ 7) with (Q2R (23 # 10000000)) by (unfold Q2R; cbn [Qnum Qden]; field). apply diff_bound; [exact I|].
  pose proof table1_right as T. rewrite forallb_forall in T. apply T. apply in_seq. lia.
Qed.
Lemma table1_rounded i : (i < 8)%nat -> Rabs (room 4 i - room 4 (S i) - TreeLawSpec.entry target1 i) <= 5 / 10 ^ 9.
Proof.
  intro I. replace (5 / 10 ^ 9) with (Q2R (5 # 1000000000)) by (unfold Q2R; cbn [Qnum Qden]; field). apply diff_bound; [lia|].
  pose proof table1_exact as T. rewrite forallb_forall in T. apply T. apply in_seq. lia.
Qed.
Lemma table1_ten : 22 / 10 ^ 7 <= room 4 10 - room 4 11 - TreeLawSpec.entry target1 10.
Proof.
  rewrite <- diff_real by lia. replace (22 / 10 ^ 7) with (Q2R (22 # 10000000)) by (unfold Q2R; cbn [Qnum Qden]; field). apply Qle_Rle, Qle_bool_iff. exact table1_off.
Qed.
Lemma room_full n : (16 <= n)%nat -> room 4 n = 0.
Proof.
  intro H. replace n with (16 + (n - 16))%nat by lia. induction (n - 16)%nat as [|k IH].
  - change (16 + 0)%nat with 16%nat. rewrite <- row_room by lia. rewrite row16. unfold Q2R. cbn. lra.
  - assert (G : forall d m, 0 <= room d m).
    { clear. induction d as [|d IH]; intros [|m]; cbn [room]; try lra. apply Rmult_le_pos; [|left; apply Rinv_0_lt_compat, lt_0_INR; lia]. apply OpermReal.rsum_nonneg. intros j _. now apply Rmult_le_pos. }
    pose proof (over_room 4 (16 + k)) as E. replace (16 + S k)%nat with (S (16 + k)) by lia. pose proof (G 4%nat (S (16 + k))%nat).
    assert (O : 0 <= over 4 (S (16 + k))).
    { clear - G. assert (O : forall d n, 0 <= over d n). { induction d as [|d IH]; intros n; [destruct n as [|[|n]]; cbn; lra|]. destruct n as [|n]; [cbn; lra|]. cbn [over]. apply Rmult_le_pos; [|left; apply Rinv_0_lt_compat, lt_0_INR; lia]. apply OpermReal.rsum_nonneg. intros j _.
        apply Rmult_le_pos; [|now apply Rmult_le_pos]. destruct n as [|n]; [unfold Rdiv; cbn; rewrite Rinv_0; lra|]. apply Rmult_le_pos; [apply pos_INR|left; apply Rinv_0_lt_compat, lt_0_INR; lia]. }
      apply O. }
    rewrite IH in E. lra.
Qed.
