From Verif Require Import BaseLemmas ThreefishModel ThreefishSpec ThreefishLemmas.
Open Scope N_scope.

Lemma plus64_w : forall x y, plus64 x y = w64 (x + y).
Proof. reflexivity. Qed.
Lemma w64_add : forall x y z, w64 (w64 (x + y) + z) = w64 (x + w64 (y + z)).
Proof. intros. unfold w64. rewrite N.add_mod_idemp_l, N.add_mod_idemp_r by discriminate. f_equal. lia. Qed.

Section Keyed.
Variables k0 k1 k2 k3 k4 k5 k6 k7 t0 t1 : N.
Let key := [k0; k1; k2; k3; k4; k5; k6; k7].
Let tweak := [t0; t1].
Let k8 := fold_left N.lxor key 0x5555555555555555.
Let ks := [k0; k1; k2; k3; k4; k5; k6; k7; k8].
Let ts := [t0; t1; N.lxor t0 t1].
Lemma ref_schedule_ok : ref_schedule key = Ok ks.
Proof. reflexivity. Qed.
Lemma ref_tweak_ok : ref_tweak tweak = Ok ts.
Proof. reflexivity. Qed.
Lemma ks_nth : forall i, (i < 9)%nat -> nth i ks 0 = key_word key i.
Proof. intros i I. do 9 (destruct i as [|i]; [reflexivity|]). lia. Qed.
Lemma ts_nth : forall i, (i < 3)%nat -> nth i ts 0 = tweak_word tweak i.
Proof. intros i I. do 3 (destruct i as [|i]; [reflexivity|]). lia. Qed.
Lemma ks_get : forall s i, aget ks (Z.of_nat (Nat.modulo (s + i) 9)) = Ok (key_word key (Nat.modulo (s + i) 9)).
Proof. intros s i. pose proof (Nat.mod_upper_bound (s + i) 9 ltac:(lia)). rewrite (aget_ok ks _ 0) by (cbn [ks length]; lia). rewrite Nat2Z.id, ks_nth by assumption. reflexivity. Qed.
Lemma ts_get : forall s i, aget ts (Z.of_nat (Nat.modulo (s + i) 3)) = Ok (tweak_word tweak (Nat.modulo (s + i) 3)).
Proof. intros s i. pose proof (Nat.mod_upper_bound (s + i) 3 ltac:(lia)). rewrite (aget_ok ts _ 0) by (cbn [ts length]; lia). rewrite Nat2Z.id, ts_nth by assumption. reflexivity. Qed.
Definition inj (s : nat) (x0 x1 x2 x3 x4 x5 x6 x7 : N) : list N :=
  let k i := key_word key (Nat.modulo (s + i) 9) in
  [w64 (x0 + k 0%nat); w64 (x1 + k 1%nat); w64 (x2 + k 2%nat); w64 (x3 + k 3%nat); w64 (x4 + k 4%nat);
   w64 (x5 + w64 (k 5%nat + tweak_word tweak (Nat.modulo s 3))); w64 (x6 + w64 (k 6%nat + tweak_word tweak (Nat.modulo (s + 1) 3))); w64 (x7 + w64 (k 7%nat + N.of_nat s))].
Lemma add_subkey_eq : forall s x0 x1 x2 x3 x4 x5 x6 x7, add_subkey key tweak s [x0; x1; x2; x3; x4; x5; x6; x7] = inj s x0 x1 x2 x3 x4 x5 x6 x7.
Proof. reflexivity. Qed.
Lemma add_subkey_eight : forall s v, eight (add_subkey key tweak s v).
Proof. intros. apply eight_len. reflexivity. Qed.
Lemma ref_inject_ok : forall s v, eight v -> ref_inject ks ts v (N.of_nat s) = Ok (add_subkey key tweak s v).
Proof.
  intros s v (x0 & x1 & x2 & x3 & x4 & x5 & x6 & x7 & ->). rewrite add_subkey_eq. unfold ref_inject, inj. cbn [ref_inject_keys].
  assert (K : forall i j, i = N.of_nat j -> aget ks (Z.of_N ((N.of_nat s + i) mod 9)) = Ok (key_word key (Nat.modulo (s + j) 9))).
  { intros i j ->. rewrite <- Nat2N.inj_add. change 9 with (N.of_nat 9). rewrite <- Nat2N.inj_mod. rewrite nat_N_Z. apply ks_get. }
  assert (T : forall i j, i = N.of_nat j -> aget ts (Z.of_N ((N.of_nat s + i) mod 3)) = Ok (tweak_word tweak (Nat.modulo (s + j) 3))).
  { intros i j ->. rewrite <- Nat2N.inj_add. change 3 with (N.of_nat 3). rewrite <- Nat2N.inj_mod. rewrite nat_N_Z. apply ts_get. }
  rewrite (K 0 0%nat) by reflexivity. rewrite (K (0 + 1) 1%nat) by reflexivity. rewrite (K (0 + 1 + 1) 2%nat) by reflexivity. rewrite (K (0 + 1 + 1 + 1) 3%nat) by reflexivity.
  rewrite (K (0 + 1 + 1 + 1 + 1) 4%nat) by reflexivity. rewrite (K (0 + 1 + 1 + 1 + 1 + 1) 5%nat) by reflexivity. rewrite (K (0 + 1 + 1 + 1 + 1 + 1 + 1) 6%nat) by reflexivity. rewrite (K (0 + 1 + 1 + 1 + 1 + 1 + 1 + 1) 7%nat) by reflexivity.
  rewrite (T 0 0%nat) by reflexivity. rewrite (T 1 1%nat) by reflexivity. clear K T. rewrite !Nat.add_0_r. rewrite <- !w64_add.
  generalize (key_word key (s mod 9)) (key_word key ((s + 1) mod 9)) (key_word key ((s + 2) mod 9)) (key_word key ((s + 3) mod 9)) (key_word key ((s + 4) mod 9)) (key_word key ((s + 5) mod 9)) (key_word key ((s + 6) mod 9)) (key_word key ((s + 7) mod 9)) (tweak_word tweak (s mod 3)) (tweak_word tweak ((s + 1) mod 3)) (N.of_nat s).
  intros. reflexivity.
Qed.
Lemma i512_ok : forall R v, eight v -> i512 ks ts R v = Ok (add_subkey key tweak (S R) v).
Proof.
  intros R v (x0 & x1 & x2 & x3 & x4 & x5 & x6 & x7 & ->). rewrite add_subkey_eq. unfold i512, inj.
  rewrite !ks_get, !ts_get. cbn [bind].
  replace (S R + 0)%nat with (R + 1)%nat by lia. replace (S R + 1)%nat with (R + 2)%nat by lia. replace (S R + 2)%nat with (R + 3)%nat by lia. replace (S R + 3)%nat with (R + 4)%nat by lia. replace (S R + 4)%nat with (R + 5)%nat by lia.
  replace (S R + 5)%nat with (R + 6)%nat by lia. replace (S R + 6)%nat with (R + 7)%nat by lia. replace (S R + 7)%nat with (R + 8)%nat by lia. replace (S R) with (R + 1)%nat by lia.
  rewrite (w64_add (key_word key ((R + 8) mod 9)) (N.of_nat R) 1). replace (N.of_nat (R + 1)) with (N.of_nat R + 1) by lia.
  assert (W : forall x y, w64 (x + w64 y) = w64 (x + y)) by (intros; unfold w64; apply N.add_mod_idemp_r; discriminate). unfold reg. cbn [nth]. rewrite (W (key_word key ((R + 8) mod 9)) (N.of_nat R + 1)). rewrite !W. reflexivity.
Qed.

(** State before round d, with the subkey of rounds divisible by four already added. *)
Definition eight_rounds (q : nat) (v : list N) : list N :=
  add_subkey key tweak (2 * q + 2) (mixperm (mixperm (mixperm (mixperm
    (add_subkey key tweak (2 * q + 1) (mixperm (mixperm (mixperm (mixperm v 0) 1) 2) 3)) 4) 5) 6) 7).
Lemma eight_rounds_eight : forall q v, eight (eight_rounds q v).
Proof. intros. apply add_subkey_eight. Qed.
Lemma ref_rounds_ok : forall n q v, eight v -> ref_rounds n (N.of_nat (S q)) ks ts v = Ok (fold_left (fun v q => eight_rounds q v) (seq q n) v).
Proof.
  induction n as [|n IH]; intros q v E; cbn [ref_rounds seq fold_left]; [reflexivity|].
  rewrite ref_first_ok by exact E. cbn [bind].
  assert (E1 : eight (mixperm (mixperm (mixperm (mixperm v 0) 1) 2) 3)) by (repeat apply mixperm_eight; exact E).
  replace (2 * N.of_nat (S q) - 1) with (N.of_nat (2 * q + 1)) by lia. rewrite ref_inject_ok by exact E1. cbn [bind].
  rewrite ref_second_ok by apply add_subkey_eight. cbn [bind].
  replace (2 * N.of_nat (S q)) with (N.of_nat (2 * q + 2)) by lia. rewrite ref_inject_ok by (repeat apply mixperm_eight; apply add_subkey_eight). cbn [bind].
  replace (N.of_nat (S q) + 1) with (N.of_nat (S (S q))) by lia. apply IH. apply eight_rounds_eight.
Qed.
Lemma rounds8_ok : forall R v, eight v -> rounds8 ks ts R v = Ok (eight_rounds R v).
Proof.
  intros R v E. unfold rounds8, eight_rounds.
  change ((do X <- i512 ks ts (2 * R) (round512 6 1 0 7 2 5 4 3 (rotation 3 0) (rotation 3 1) (rotation 3 2) (rotation 3 3)
     (round512 4 1 6 3 0 5 2 7 (rotation 2 0) (rotation 2 1) (rotation 2 2) (rotation 2 3)
      (round512 2 1 4 7 6 5 0 3 (rotation 1 0) (rotation 1 1) (rotation 1 2) (rotation 1 3)
       (round512 0 1 2 3 4 5 6 7 (rotation 0 0) (rotation 0 1) (rotation 0 2) (rotation 0 3) v)))) ;;
   i512 ks ts (2 * R + 1) (round512 6 1 0 7 2 5 4 3 (rotation 7 0) (rotation 7 1) (rotation 7 2) (rotation 7 3)
     (round512 4 1 6 3 0 5 2 7 (rotation 6 0) (rotation 6 1) (rotation 6 2) (rotation 6 3)
      (round512 2 1 4 7 6 5 0 3 (rotation 5 0) (rotation 5 1) (rotation 5 2) (rotation 5 3)
       (round512 0 1 2 3 4 5 6 7 (rotation 4 0) (rotation 4 1) (rotation 4 2) (rotation 4 3) X))))) =
   Ok (add_subkey key tweak (2 * R + 2) (mixperm (mixperm (mixperm (mixperm (add_subkey key tweak (2 * R + 1) (mixperm (mixperm (mixperm (mixperm v 0) 1) 2) 3)) 4) 5) 6) 7))).
  rewrite group64 by exact E. rewrite i512_ok by (repeat apply mixperm_eight; exact E). cbn [bind].
  replace (S (2 * R)) with (2 * R + 1)%nat by lia. rewrite group64 by apply add_subkey_eight. rewrite i512_ok by (repeat apply mixperm_eight; apply add_subkey_eight).
  replace (S (2 * R + 1)) with (2 * R + 2)%nat by lia. reflexivity.
Qed.
Lemma spec_rounds : forall n v, add_subkey key tweak (2 * n) (fold_left (round key tweak) (seq 0 (8 * n)) v) =
  fold_left (fun v q => eight_rounds q v) (seq 0 n) (add_subkey key tweak 0 v).
Proof.
  induction n as [|n IH]; intro v; [reflexivity|].
  replace (8 * S n)%nat with (8 * n + 8)%nat by lia. rewrite seq_app, fold_left_app. rewrite (seq_S n 0), (fold_left_app _ (seq 0 n)). cbn [Nat.add]. rewrite <- IH. clear IH.
  generalize (fold_left (round key tweak) (seq 0 (8 * n)) v). clear v. intro v. cbn [fold_left seq].
  assert (M : forall k, (k < 8)%nat -> Nat.modulo (8 * n + k) 4 = Nat.modulo k 4) by (intros k K; replace (8 * n + k)%nat with (k + 2 * n * 4)%nat by lia; apply Nat.mod_add; lia).
  assert (RR : forall w k, (0 < k < 4 \/ 4 < k < 8)%nat -> round key tweak w (8 * n + k) = mixperm w k).
  { intros w k K. unfold round. rewrite M by lia. replace (Nat.eqb (k mod 4) 0) with false; [apply mixperm_mod; lia|].
    symmetry. apply Nat.eqb_neq. destruct K as [K|K]; [rewrite Nat.mod_small by lia; lia|replace k with (k - 4 + 1 * 4)%nat by lia; rewrite Nat.mod_add, Nat.mod_small by lia; lia]. }
  assert (R0 : forall w, round key tweak w (8 * n) = mixperm (add_subkey key tweak (2 * n) w) 0).
  { intro w. unfold round. replace (8 * n)%nat with (8 * n + 0)%nat by lia. rewrite M by lia. cbn [Nat.modulo Nat.divmod fst snd Nat.sub Nat.eqb].
    replace ((8 * n + 0) / 4)%nat with (2 * n)%nat by (apply Nat.div_unique with (r := 0%nat); lia). apply mixperm_mod. lia. }
  assert (R4 : forall w, round key tweak w (8 * n + 4) = mixperm (add_subkey key tweak (2 * n + 1) w) 4).
  { intro w. unfold round. rewrite M by lia. cbn [Nat.modulo Nat.divmod fst snd Nat.sub Nat.eqb].
    replace ((8 * n + 4) / 4)%nat with (2 * n + 1)%nat by (apply Nat.div_unique with (r := 0%nat); lia). apply mixperm_mod. lia. }
  rewrite R0. replace (S (8 * n)) with (8 * n + 1)%nat by lia. rewrite (RR _ 1%nat) by lia. replace (S (8 * n + 1)) with (8 * n + 2)%nat by lia. rewrite (RR _ 2%nat) by lia.
  replace (S (8 * n + 2)) with (8 * n + 3)%nat by lia. rewrite (RR _ 3%nat) by lia. replace (S (8 * n + 3)) with (8 * n + 4)%nat by lia. rewrite R4.
  replace (S (8 * n + 4)) with (8 * n + 5)%nat by lia. rewrite (RR _ 5%nat) by lia. replace (S (8 * n + 5)) with (8 * n + 6)%nat by lia. rewrite (RR _ 6%nat) by lia. replace (S (8 * n + 6)) with (8 * n + 7)%nat by lia. rewrite (RR _ 7%nat) by lia.
  unfold eight_rounds. replace (2 * S n)%nat with (2 * n + 2)%nat by lia. reflexivity.
Qed.
Lemma threefish_eq : forall v, threefish key tweak v = fold_left (fun v q => eight_rounds q v) (seq 0 9) (add_subkey key tweak 0 v).
Proof. intro v. exact (spec_rounds 9 v). Qed.
Lemma first_inject : forall x0 x1 x2 x3 x4 x5 x6 x7, add_subkey key tweak 0 [x0; x1; x2; x3; x4; x5; x6; x7] =
  [w64 (x0 + k0); w64 (x1 + k1); w64 (x2 + k2); w64 (x3 + k3); w64 (x4 + k4); w64 (w64 (x5 + k5) + t0); w64 (w64 (x6 + k6) + t1); w64 (x7 + k7)].
Proof.
  intros. rewrite add_subkey_eq. unfold inj. rewrite !w64_add.
  assert (W : forall x y, w64 (x + w64 (y + N.of_nat 0)) = w64 (x + y)) by (intros; rewrite N.add_0_r; unfold w64; apply N.add_mod_idemp_r; discriminate). rewrite W. reflexivity.
Qed.
Lemma ref_block_ok : forall v, eight v -> ref_block ks ts v = Ok (threefish key tweak v).
Proof.
  intros v E. rewrite threefish_eq. rewrite <- (ref_rounds_ok 9 0) by apply add_subkey_eight. destruct E as (x0 & x1 & x2 & x3 & x4 & x5 & x6 & x7 & ->). rewrite first_inject.
  unfold ref_block. change (N.of_nat 1) with 1. generalize (ref_rounds 9 1 ks ts). intro f. reflexivity.
Qed.
Lemma block64_ok : forall v, eight v -> block64 ks ts v = Ok (threefish key tweak v).
Proof.
  intros v E. rewrite threefish_eq. destruct E as (x0 & x1 & x2 & x3 & x4 & x5 & x6 & x7 & ->).
  pose proof (add_subkey_eight 0 [x0; x1; x2; x3; x4; x5; x6; x7]) as E. rewrite first_inject in *.
  unfold block64. change (aget ks 0) with (Ok k0). change (aget ks 1) with (Ok k1). change (aget ks 2) with (Ok k2). change (aget ks 3) with (Ok k3). change (aget ks 4) with (Ok k4). change (aget ks 5) with (Ok k5). change (aget ks 6) with (Ok k6). change (aget ks 7) with (Ok k7). change (aget ts 0) with (Ok t0). change (aget ts 1) with (Ok t1).
  cbn [bind reg nth seq fold_left]. generalize dependent [w64 (x0 + k0); w64 (x1 + k1); w64 (x2 + k2); w64 (x3 + k3); w64 (x4 + k4); w64 (w64 (x5 + k5) + t0); w64 (w64 (x6 + k6) + t1); w64 (x7 + k7)].
  intros v E. do 9 (rewrite rounds8_ok by (exact E || apply eight_rounds_eight); cbn [bind]). reflexivity.
Qed.
End Keyed.
