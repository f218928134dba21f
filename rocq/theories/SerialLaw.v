(** The mean of psi-square of the serial test. *)
From Coq Require Import Lia Lra.
From Verif Require Export BitStatSpec BitStatModel.
From Verif Require Import BaseLemmas BitsLemmas TallyLemmas OpermReal DnaBlock RunsArcs CrapsLaw CrapsLaw2 VtestLaw RankLawLemmas MissingLaw WindowLaw WordDigits WordCode CountLaw.
Open Scope R_scope.

Definition m_idx (p : nat) : nat := (p / 32)%nat.
Definition m_loc (p : nat) (j : N) : N := (31 - N.of_nat (p mod 32))%N.
Lemma m_ok M : places 32 M (32 * M) 1 m_idx m_loc.
Proof.
  unfold m_idx, m_loc. split; [|split].
  - intros p P. apply Nat.div_lt_upper_bound; lia.
  - intros p j P J. lia.
  - intros p q i j P Q I J E F. change (N.of_nat 1) with 1%N in *. split; [|lia].
    pose proof (Nat.div_mod p 32). pose proof (Nat.div_mod q 32). pose proof (Nat.mod_upper_bound p 32). pose proof (Nat.mod_upper_bound q 32). lia.
Qed.
Definition b2n (b : bool) : N := if b then 1%N else 0%N.
Lemma one_bit f : number_of_bits f 1 = b2n (f 0%N).
Proof. cbn. destruct (f 0%N); reflexivity. Qed.
Lemma m_bit l p : b2n (cyclic_msb_bit l (N.of_nat p)) = digit_at 1 m_idx m_loc (p mod (32 * length l)) l.
Proof.
  unfold digit_at, digit_of. rewrite one_bit. f_equal. unfold cyclic_msb_bit, msb, m_idx, m_loc.
  replace (32 * N.of_nat (length l))%N with (N.of_nat (32 * length l)) by lia. destruct (Nat.eq_dec (32 * length l) 0) as [Z|Z].
  { assert (l = []) by (destruct l; [reflexivity|cbn in Z; lia]). subst. rewrite !nth_overflow by (cbn; lia). now rewrite !N.bits_0. }
  rewrite <- Nat2N.inj_mod. replace 32%N with (N.of_nat 32) by reflexivity.
  rewrite <- Nat2N.inj_div, <- Nat2N.inj_mod, Nat2N.id. reflexivity.
Qed.
Lemma window_code bit m : forall t, window_value bit t m = code 2 (map (fun r => b2n (bit (t + N.of_nat r)%N)) (seq 0 m)).
Proof.
  induction m as [|m IH]; intro t; [reflexivity|]. cbn [seq map]. rewrite code_cons, map_length, seq_length, N.add_0_r.
  rewrite <- seq_shift, map_map. rewrite (map_ext _ (fun r => b2n (bit (t + 1 + N.of_nat r)%N))) by (intro; do 2 f_equal; lia).
  rewrite <- IH. unfold window_value. change (number_of_bits (fun k : N => bit (t + N.of_nat (S m) - 1 - k)%N) (S m)) with
    (number_of_bits (fun k : N => bit (t + N.of_nat (S m) - 1 - k)%N) m + (if bit (t + N.of_nat (S m) - 1 - N.of_nat m)%N then 2 ^ N.of_nat m else 0))%N.
  replace (t + N.of_nat (S m) - 1 - N.of_nat m)%N with t by lia. rewrite N.add_comm. f_equal; [destruct (bit t); cbn [b2n]; lia|].
  apply number_of_bits_ext. intros k K. f_equal. lia.
Qed.
Lemma window_lt l m t : (cyclic_window l m t < 2 ^ N.of_nat m)%N.
Proof. unfold cyclic_window, window_value. apply number_of_bits_lt. Qed.
Lemma words_1 : words (N.of_nat 1) = [0%N; 1%N].
Proof. reflexivity. Qed.
Lemma half_chance u : (forall y, In y u -> (y < 2)%N) -> chance (words (N.of_nat 1)) (fun x => x) u = (/ 2) ^ length u.
Proof.
  induction u as [|y u IH] using rev_ind; intro H; [reflexivity|]. rewrite chance_snoc, IH by (intros; apply H; apply in_or_app; now left). rewrite app_length, pow_add.
  f_equal. assert (Y : (y < 2)%N) by (apply H, in_or_app; right; now left). unfold share. rewrite words_1. assert (D : y = 0%N \/ y = 1%N) by lia.
  unfold average, b2r. destruct D as [-> | ->]; cbn; field.
Qed.
Lemma turn n x : (x < 2 * n)%nat -> (x mod n = if x <? n then x else x - n)%nat.
Proof.
  intro H. destruct (Nat.ltb_spec x n); [now apply Nat.mod_small|]. replace x with (x - n + 1 * n)%nat at 1 by lia. rewrite Nat.mod_add by lia. apply Nat.mod_small. lia.
Qed.
Lemma often_total b n word : (0 < b)%nat -> (forall t, (t < n)%nat -> (word t < N.of_nat b)%N) -> rsum b (fun v => how_often n word v) = INR n.
Proof.
  intros B H. rewrite (rsum_ext b _ (fun v => rsum n (fun t => b2r (word t =? N.of_nat v)%N))) by (intros; apply often_sum).
  induction n as [|n IH]; [cbn [rsum]; rewrite rsum_const; cbn; ring|].
  cbn [rsum]. rewrite <- rsum_plus, IH by (intros; apply H; lia). rewrite S_INR. f_equal. specialize (H n ltac:(lia)). clear - H.
  assert (G : forall k, rsum k (fun v => b2r (word n =? N.of_nat v)%N) = if (word n <? N.of_nat k)%N then 1 else 0).
  { induction k as [|k IH]; [cbn [rsum]; destruct (N.ltb_spec (word n) (N.of_nat 0)); [lia|reflexivity]|]. cbn [rsum]. rewrite IH. unfold b2r.
    destruct (N.ltb_spec (word n) (N.of_nat k)); destruct (N.ltb_spec (word n) (N.of_nat (S k))); destruct (N.eqb_spec (word n) (N.of_nat k)); try lia; ring. }
  rewrite G. destruct (N.ltb_spec (word n) (N.of_nat b)); [reflexivity|lia].
Qed.
Lemma windows_total l m : rsum (2 ^ m) (fun v => how_often (32 * length l) (cyclic_window l m) v) = INR (32 * length l).
Proof.
  apply often_total; [assert (2 ^ m <> 0)%nat by (apply Nat.pow_nonzero; lia); lia|]. intros t _. rewrite Nat2N.inj_pow. apply window_lt.
Qed.
Lemma bits_in_INR l : bits_in l = INR (32 * length l).
Proof. unfold bits_in. rewrite mult_INR. f_equal. rewrite INR_IZR_INZ. reflexivity. Qed.
Lemma psi_pearson l m : (1 <= m)%nat -> l <> [] -> psi_square l m =
  rsum (2 ^ m) (fun v => (how_often (32 * length l) (cyclic_window l m) v - INR (32 * length l) * (/ 2) ^ m) ^ 2 / (INR (32 * length l) * (/ 2) ^ m)).
Proof.
  intros M L. pose proof (windows_total l m) as T. unfold psi_square. destruct m as [|m']; [lia|]. rewrite bits_in_INR. set (m := S m') in *. set (n := (32 * length l)%nat) in *.
  assert (P : 0 < INR n) by (apply lt_0_INR; unfold n; destruct l; [congruence|cbn; lia]). assert (Q : 0 < 2 ^ m) by (apply pow_lt; lra).
  rewrite (rsum_ext _ (fun v => (how_often n (cyclic_window l m) v - INR n * (/ 2) ^ m) ^ 2 / (INR n * (/ 2) ^ m))
    (fun v => 2 ^ m / INR n * how_often n (cyclic_window l m) v ^ 2 + (- 2 * how_often n (cyclic_window l m) v + INR n / 2 ^ m))).
  - rewrite <- rsum_plus, <- rsum_plus, <- !rsum_scale, rsum_const. change (rsum (2 ^ m) (how_often n (cyclic_window l m)) = INR n) in T. rewrite ?T. rewrite pow_INR. replace (INR 2) with 2 by (cbn; ring). field. split; lra.
  - intros v _. rewrite pow_inv. field. split; lra.
Qed.
Theorem psi_mean M m : (1 <= M)%nat -> (1 <= m <= 16)%nat -> average (matrices 32 M) (fun l => psi_square l m) = 2 ^ m - 1.
Proof.
  intros HM Hm. set (n := (32 * M)%nat).
  rewrite (average_ext _ _ (fun l => rsum (N.to_nat 2 ^ m) (fun v => (how_often n (cyclic_window l m) v - INR n * (/ 2) ^ m) ^ 2 / (INR n * (/ 2) ^ m)))).
  - change (2 ^ m - 1) with (INR (N.to_nat 2) ^ m - 1).
    apply (digits_mean 32 M n 1 m_idx m_loc (fun x => x) 2 n m (fun i r => ((i + r) mod n)%nat) (fun l => cyclic_window l m) (fun _ => (/ 2) ^ m) (m_ok M)).
    + intros x X. rewrite words_1 in X. cbn in X. lia.
    + intros y Y. exists y. split; [rewrite words_1; cbn; lia|reflexivity].
    + unfold n; lia.
    + intros i r I R. apply Nat.mod_upper_bound. lia.
    + intros i r s I R S E. rewrite !turn in E by lia. destruct (Nat.ltb_spec (i + r) n), (Nat.ltb_spec (i + s) n); lia.
    + intros i j I J NE. unfold ahead.
      assert (G : forall i j, (i < n)%nat -> (j < n)%nat -> (i < j /\ j - i <= n - m \/ j < i /\ i - j >= m)%nat -> forall r s, (s <= r < m)%nat -> ((j + r) mod n)%nat <> ((i + s) mod n)%nat).
      { clear i j I J NE. intros i j I J D r s RS. rewrite !turn by lia. destruct (Nat.ltb_spec (j + r) n), (Nat.ltb_spec (i + s) n); lia. }
      destruct (Nat.lt_ge_cases i j).
      * destruct (Nat.le_gt_cases (j - i) (n - m)); [left|right]; apply G; lia.
      * destruct (Nat.le_gt_cases (i - j) (n - m)); [right|left]; apply G; lia.
    + intros l i Hl I. unfold cyclic_window. rewrite window_code. f_equal. apply map_ext. intro r. rewrite <- Nat2N.inj_add, m_bit.
      apply in_matrices in Hl. destruct Hl as (-> & _). reflexivity.
    + intros u U. apply in_tuples in U. destruct U as (<- & U). symmetry. apply half_chance. intros y Y. apply in_alphabet, U, Y.
  - intros l Hl. apply in_matrices in Hl. destruct Hl as (E & _). rewrite psi_pearson, E; [reflexivity|lia|]. destruct l; [cbn in E; lia|discriminate].
Qed.
Lemma psi_mean_all M m : (1 <= M)%nat -> (m <= 16)%nat -> average (matrices 32 M) (fun l => psi_square l m) = 2 ^ m - 1.
Proof. intros HM Hm. destruct m as [|m]; [cbn [psi_square]; rewrite average_zero; cbn; ring|]. apply psi_mean; lia. Qed.
Lemma del_mean M m : (1 <= M)%nat -> (1 <= m <= 16)%nat -> average (matrices 32 M) (fun l => del_psi l m) = 2 ^ (m - 1).
Proof.
  intros HM Hm. unfold del_psi. rewrite average_minus, !psi_mean_all by lia. replace m with (S (m - 1)) at 1 by lia. cbn [pow]. ring.
Qed.
Lemma del2_mean M m : (1 <= M)%nat -> (2 <= m <= 16)%nat -> average (matrices 32 M) (fun l => del2_psi l m) = 2 ^ (m - 2).
Proof.
  intros HM Hm. unfold del2_psi. rewrite average_plus, average_minus, average_scale, !psi_mean_all by lia.
  replace m with (S (S (m - 2))) at 1 2 by lia. cbn [pow Nat.sub]. replace (S (m - 2) - 0)%nat with (S (m - 2)) by lia. cbn [pow]. ring.
Qed.
