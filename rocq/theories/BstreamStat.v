(** The count of the bitstream test and the words that do not occur. *)
From Coq Require Import Lia Lra.
From Verif Require Export BstreamModel BstreamLaw.
From Verif Require Import BaseLemmas BitsLemmas TallyLemmas OpermReal DnaBlock RunsArcs CrapsLaw CrapsLaw2 VtestLaw RankLawLemmas MissingLemmas2 MissingLaw MissingLaw2 MissingNumbers WindowLaw WordDigits WordCode CountLaw SerialLaw PropMissing.
Open Scope R_scope.

(** ** the words of the program *)
Lemma stream_sword l t : stream_word (drawn l) 0 t = sword 8 20 t l.
Proof.
  unfold stream_word, sword. rewrite window_code. f_equal. apply map_ext. intro r. unfold digit_at, digit_of. rewrite one_bit. f_equal.
  unfold bit_at, drawn, m_idx, m_loc. rewrite Nat.add_0_l. replace (N.of_nat t + 8 + N.of_nat r)%N with (N.of_nat (8 + t + r)) by lia.
  replace 32%N with (N.of_nat 32) by reflexivity. rewrite <- Nat2N.inj_div, <- Nat2N.inj_mod, Nat2N.id. reflexivity.
Qed.
(** ** missing words of a list *)
Lemma outside D L : (forall x, In x L -> (x < 2 ^ D)%N) ->
  lsumR (words D) (fun x => if in_dec N.eq_dec x L then 0 else 1) + IZR (Z.of_N (distinct L)) = IZR (2 ^ Z.of_N D).
Proof.
  intro B. assert (E : L = map (fun i => nth i L 0%N) (seq 0 (length L))).
  { apply nth_ext with (d := 0%N) (d' := nth 0 L 0%N); [now rewrite map_length, seq_length|]. intros i I. rewrite (map_nth (fun i => nth i L 0%N) (seq 0 (length L)) 0%nat), seq_nth by exact I. reflexivity. }
  pose proof (absent_sum D (length L) (fun i => nth i L 0%N) (fun i I => B _ (nth_In L 0%N I))) as A. rewrite <- E in A. rewrite <- A. f_equal. apply lsumR_ext. intros x _.
  rewrite absent_in, <- E. reflexivity.
Qed.
Lemma times_in x l : (0 < times x l)%N <-> In x l.
Proof.
  induction l as [|a l IH]; [cbn; split; [lia|intros []]|]. cbn [times]. destruct (N.eqb_spec a x) as [->|NE]; split; intro H; try (now left); try lia.
  - right. apply IH. lia.
  - destruct H as [H|H]; [congruence|]. apply IH in H. lia.
Qed.
Definition wrapped (n : nat) (l : list N) : R := lsumR (words 20) (fun x => b2r (256 <=? times x (map (fun t => sword 8 20 t l) (seq 0 n)))%N).
Lemma lsumR_le {A} (l : list A) f g : (forall x, In x l -> f x <= g x) -> lsumR l f <= lsumR l g.
Proof. induction l as [|x l IH]; intro H; cbn [lsumR]; [lra|]. pose proof (H x (or_introl eq_refl)). specialize (IH (fun y Y => H y (or_intror Y))). lra. Qed.
Lemma stream_holes n l : (N.of_nat n <= 8388640)%N -> (forall x, In x l -> (x < 2 ^ 32)%N) ->
  unseen 8 20 n l <= holes (bitstream_missing (drawn l) n 0) <= unseen 8 20 n l + wrapped n l.
Proof.
  intros Hn B.
  destruct (C35_bitstream_exact (drawn l) n 0) as (h & -> & E); [|exact Hn|].
  { intro i. unfold drawn. destruct (Nat.lt_ge_cases i (length l)) as [L|L]; [apply B, nth_In, L|]. rewrite nth_overflow by exact L. reflexivity. }
  cbn zeta in E. rewrite (map_ext (stream_word (drawn l) 0) (fun t => sword 8 20 t l)) in E by (intro; apply stream_sword).
  set (ws := map _ _) in E. set (P := fun x => negb (times x ws mod 256 =? 0)%N) in E. cbn [holes].
  assert (BW : forall x, In x ws -> (x < 2 ^ 20)%N). { intros x Hx. unfold ws in Hx. apply in_map_iff in Hx. destruct Hx as (t & <- & _). apply (sword_lt 8 20). }
  assert (EH : IZR (Z.of_N h) = lsumR (words 20) (fun x => if in_dec N.eq_dec x (filter P ws) then 0 else 1)).
  { pose proof (outside 20 (filter P ws)) as O. assert (BF : forall x, In x (filter P ws) -> (x < 2 ^ 20)%N) by (intros x Hx; apply filter_In in Hx; now apply BW).
    specialize (O BF). apply (f_equal Z.of_N) in E. rewrite N2Z.inj_add in E. change (Z.of_N (2 ^ 20)) with (2 ^ 20)%Z in E. apply (f_equal IZR) in E. rewrite plus_IZR in E.
    change (IZR (2 ^ Z.of_N 20)) with (IZR (2 ^ 20)) in O. lra. }
  rewrite EH. unfold unseen, wrapped. fold ws. change (N.of_nat 20) with 20%N. rewrite <- lsumR_plus. split; apply lsumR_le; intros x _; rewrite absent_in; fold ws.
  - destruct (in_dec N.eq_dec x (filter P ws)) as [I|I], (in_dec N.eq_dec x ws) as [J|J]; try lra. apply filter_In in I. tauto.
  - unfold b2r. destruct (in_dec N.eq_dec x (filter P ws)) as [I|I], (in_dec N.eq_dec x ws) as [J|J]; try (destruct (_ <=? _)%N; lra).
    destruct (N.leb_spec 256 (times x ws)); [lra|]. exfalso. apply I. apply filter_In. split; [exact J|]. apply times_in in J. unfold P. rewrite N.mod_small by lia. destruct (N.eqb_spec (times x ws) 0); [lia|reflexivity].
Qed.

(** ** words that occur 256 times *)
Lemma times_rsum x n (word : nat -> N) : IZR (Z.of_N (times x (map word (seq 0 n)))) = rsum n (fun t => b2r (word t =? x)%N).
Proof.
  induction n as [|n IH]; [reflexivity|]. rewrite seq_S, map_app. cbn [rsum map Nat.add]. rewrite <- IH.
  assert (G : forall l y, times x (l ++ [y]) = (times x l + (if (y =? x)%N then 1 else 0))%N). { induction l as [|a l IHl]; intro y; cbn [app times]; [lia|]. rewrite IHl. lia. }
  rewrite G, N2Z.inj_add, plus_IZR. unfold b2r. destruct (_ =? _)%N; reflexivity.
Qed.
Definition tilt (x v : N) : R := if (v =? x)%N then 64 else 1.
Lemma tilt_count x n : forall word, 1 <= rprod n (fun t => tilt x (word t)) /\ forall k, INR k <= rsum n (fun t => b2r (word t =? x)%N) -> 64 ^ k <= rprod n (fun t => tilt x (word t)).
Proof.
  induction n as [|n IH]; intro word.
  - split; [cbn; lra|]. intros k K. cbn [rsum rprod] in *. destruct k as [|k]; [cbn; lra|]. rewrite S_INR in K. pose proof (pos_INR k). lra.
  - rewrite rprod_last. destruct (IH word) as (I1 & I2). split; [unfold tilt at 2; destruct (_ =? _)%N; lra|]. intros k K. cbn [rsum] in K. unfold b2r at 2 in K. unfold tilt at 2.
    destruct (word n =? x)%N; [|rewrite Rmult_1_r; apply I2; lra]. destruct k as [|k]; [cbn; lra|]. rewrite S_INR in K. cbn [pow]. specialize (I2 k ltac:(lra)). lra.
Qed.
Lemma classes K c F : rsum (c * K) F = rsum c (fun j => rsum K (fun i => F (j + c * i)%nat)).
Proof.
  rewrite Nat.mul_comm, rsum_rows. induction K as [|K IH]; [cbn [rsum]; rewrite rsum_const; ring|]. cbn [rsum]. rewrite IH, rsum_plus. apply rsum_ext. intros j _. f_equal. f_equal. lia.
Qed.
Lemma rsum_grow f a b : (forall i, 0 <= f i) -> (a <= b)%nat -> rsum a f <= rsum b f.
Proof. intros P H. induction H as [|b H IH]; [lra|]. cbn [rsum]. pose proof (P b). lra. Qed.
Lemma often_tilt x n K (word : nat -> N) : (n <= 20 * K)%nat ->
  b2r (256 <=? times x (map word (seq 0 n)))%N <= rsum 20 (fun c => rprod K (fun i => tilt x (word (c + 20 * i)%nat)) / 64 ^ 13).
Proof.
  intro H. assert (P : forall c, 0 <= rprod K (fun i => tilt x (word (c + 20 * i)%nat)) / 64 ^ 13).
  { intro c. destruct (tilt_count x K (fun i => word (c + 20 * i)%nat)) as (T & _). apply Rmult_le_pos; [lra|]. left. apply Rinv_0_lt_compat, pow_lt. lra. }
  unfold b2r. destruct (N.leb_spec 256 (times x (map word (seq 0 n)))) as [T|T]; [|apply rsum_nonneg; auto].
  assert (S : 256 <= rsum 20 (fun c => rsum K (fun i => b2r (word (c + 20 * i)%nat =? x)%N))).
  { rewrite <- (classes K 20 (fun t => b2r (word t =? x)%N)). apply Rle_trans with (rsum n (fun t => b2r (word t =? x)%N)).
    - rewrite <- times_rsum. apply IZR_le. lia.
    - apply rsum_grow; [|exact H]. intro i. unfold b2r. destruct (_ =? _)%N; lra. }
  assert (G : forall k, 1 <= rsum k (fun c => rprod K (fun i => tilt x (word (c + 20 * i)%nat)) / 64 ^ 13) \/ rsum k (fun c => rsum K (fun i => b2r (word (c + 20 * i)%nat =? x)%N)) <= 12 * INR k).
  { induction k as [|k IH]; [right; cbn; lra|]. cbn [rsum]. rewrite S_INR. destruct IH as [IH|IH]; [left; pose proof (P k); lra|].
    destruct (Rle_dec (rsum K (fun i => b2r (word (k + 20 * i)%nat =? x)%N)) 12) as [L|L]; [right; lra|]. left.
    assert (N0 : 0 <= rsum k (fun c => rprod K (fun i => tilt x (word (c + 20 * i)%nat)) / 64 ^ 13)) by (apply rsum_nonneg; auto).
    destruct (tilt_count x K (fun i => word (k + 20 * i)%nat)) as (_ & T2). assert (E13 : INR 13 <= rsum K (fun i => b2r (word (k + 20 * i)%nat =? x)%N)).
    { rewrite <- times_rsum in *. rewrite INR_IZR_INZ. apply IZR_le. apply Rnot_le_lt in L. assert (12 < Z.of_N (times x (map (fun i => word (k + 20 * i)%nat) (seq 0 K))))%Z; [|lia]. apply lt_IZR. lra. }
    specialize (T2 13%nat E13). assert (0 < 64 ^ 13) by (apply pow_lt; lra). apply Rle_trans with (rprod K (fun i => tilt x (word (k + 20 * i)%nat)) / 64 ^ 13); [|lra].
    apply (Rmult_le_reg_r (64 ^ 13)); [assumption|]. unfold Rdiv. rewrite Rmult_assoc, Rinv_l by lra. lra. }
  destruct (G 20%nat) as [G1|G1]; [exact G1|]. exfalso. replace (INR 20) with 20 in G1 by (rewrite INR_IZR_INZ; reflexivity). lra.
Qed.
