(** Moments of the statistics of sts_monobit, sts_runs and of the monobit part of sts_serial. *)
From Coq Require Import Lia Lra.
From Verif Require Export SerialLaw.
From Verif Require Import BaseLemmas BitsLemmas OpermReal RunsArcs VtestLaw RankLawLemmas MissingLaw WindowLaw WordDigits WordCode CountLaw CountStat BitMoments.
Open Scope R_scope.

Ltac bits := change (N.lxor 0 1) with 1%N; change (N.lxor 1 1) with 0%N; change (N.to_nat 1) with 1%nat; change (N.to_nat 0) with 0%nat; cbn [INR].
Definition sgn (idx : nat -> nat) (loc : nat -> N -> N) (p : nat) (l : list N) : R := 1 - 2 * INR (N.to_nat (digit_at 1 idx loc p l)).
Section Signs.
Variable w : N.
Variable M L : nat.
Variable idx : nat -> nat.
Variable loc : nat -> N -> N.
Hypothesis P : places w M L 1 idx loc.
Let all := matrices w M.
Definition flip1 (p : nat) : list N -> list N := change w 1 idx loc p 1.
Lemma digit_two p l : (p < L)%nat -> In l all -> digit_at 1 idx loc p l = 0%N \/ digit_at 1 idx loc p l = 1%N.
Proof. intros Hp I. pose proof (d_digit w M L 1 idx loc p l Hp I) as D. apply in_words in D. change (2 ^ N.of_nat 1)%N with 2%N in D. lia. Qed.
Lemma one_in : In 1%N (words (N.of_nat 1)).
Proof. rewrite words_1. cbn. auto. Qed.
Lemma g_perm p : (p < L)%nat -> Permutation.Permutation (map (flip1 p) all) all.
Proof. destruct P as (P1 & P2 & P3). intro Hp. apply (d_perm w M L 1 idx loc P1 P2 P3 p 1 Hp one_in). Qed.
Lemma g_own p l : (p < L)%nat -> In l all -> sgn idx loc p (flip1 p l) = - sgn idx loc p l.
Proof.
  destruct P as (P1 & P2 & P3). intros Hp I. unfold sgn, flip1. rewrite (d_self w M L 1 idx loc P1 P2 P3) by (assumption || reflexivity).
  destruct (digit_two p l Hp I) as [-> | ->]; bits; ring.
Qed.
Lemma g_others p q l : (p < L)%nat -> (q < L)%nat -> q <> p -> In l all -> sgn idx loc q (flip1 p l) = sgn idx loc q l.
Proof.
  destruct P as (P1 & P2 & P3). intros Hp Hq NE I. unfold sgn, flip1. now rewrite (d_other w M L 1 idx loc P1 P2 P3 p q 1 l Hp Hq NE one_in I).
Qed.
Lemma g_unit p l : (p < L)%nat -> In l all -> sgn idx loc p l * sgn idx loc p l = 1.
Proof. intros Hp I. unfold sgn. destruct (digit_two p l Hp I) as [-> | ->]; bits; ring. Qed.
Definition total_sign (l : list N) : R := S (sgn idx loc) L l.
Definition total_pairs (l : list N) : R := C L (sgn idx loc) L l.
Lemma sign_mean : average all total_sign = 0.
Proof. apply (S_mean all L (sgn idx loc) flip1 g_perm g_own g_others g_unit). lia. Qed.
Lemma sign_square : average all (fun l => total_sign l ^ 2) = INR L.
Proof. apply (S_square all L (sgn idx loc) flip1 (d_ne w M) g_perm g_own g_others g_unit). lia. Qed.
Lemma sign_fourth : average all (fun l => total_sign l ^ 4) = 3 * INR L ^ 2 - 2 * INR L.
Proof. apply (S_fourth all L (sgn idx loc) flip1 (d_ne w M) g_perm g_own g_others g_unit). lia. Qed.
Hypothesis L3 : (3 <= L)%nat.
Lemma pairs_mean : average all total_pairs = 0.
Proof. apply (C_mean all L (sgn idx loc) flip1 g_perm g_own g_others g_unit L3). lia. Qed.
Lemma pairs_square : average all (fun l => total_pairs l ^ 2) = INR L.
Proof. apply (C_square all L (sgn idx loc) flip1 (d_ne w M) g_perm g_own g_others g_unit L3). Qed.
Lemma sign_pairs : average all (fun l => total_sign l ^ 2 * total_pairs l) = 2 * INR L.
Proof. apply (mixed all L (sgn idx loc) flip1 (d_ne w M) g_perm g_own g_others g_unit L3). Qed.
End Signs.

(** ** monobit *)
Definition w_idx (w p : nat) : nat := (p / w)%nat.
Definition w_loc (w p : nat) (j : N) : N := N.of_nat (p mod w).
Lemma div_mod_inj w p q : (1 <= w)%nat -> (p / w = q / w)%nat -> (p mod w = q mod w)%nat -> p = q.
Proof. intros W E F. rewrite (Nat.div_mod p w), (Nat.div_mod q w) by lia. now rewrite E, F. Qed.
Lemma w_ok w M : (1 <= w)%nat -> places (N.of_nat w) M (M * w) 1 (w_idx w) (w_loc w).
Proof.
  intro W. unfold w_idx, w_loc. split; [|split].
  - intros p Hp. apply Nat.div_lt_upper_bound; lia.
  - intros p j Hp J. pose proof (Nat.mod_upper_bound p w). lia.
  - intros p q i j Hp Hq I J E F. change (N.of_nat 1) with 1%N in *. split; [|lia]. apply (div_mod_inj w); [exact W|exact E|lia].
Qed.
Lemma INR_b2n b : INR (N.to_nat (b2n b)) = b2r b.
Proof. destruct b; reflexivity. Qed.
Lemma ones_rsum w x : INR (N.to_nat (ones w x)) = rsum w (fun j => b2r (N.testbit x (N.of_nat j))).
Proof. induction w as [|w IH]; [reflexivity|]. cbn [ones rsum]. rewrite N2Nat.inj_add, plus_INR, IH. destruct (N.testbit x (N.of_nat w)); unfold b2r; bits; ring. Qed.
Lemma monobit_sign w M l : (1 <= w)%nat -> length l = M -> ones_minus_zeros w l = - total_sign (M * w) (w_idx w) (w_loc w) l.
Proof.
  intros W E. unfold ones_minus_zeros, total_sign, S. rewrite rsum_rows.
  transitivity (rsum M (fun i => 2 * INR (N.to_nat (ones w (nth i l 0%N))) - INR w)).
  - rewrite <- E. clear E. induction l as [|x l IH] using rev_ind; [reflexivity|]. rewrite VtestLaw.lsumR_app, app_length, Nat.add_1_r, IH. cbn [rsum lsumR]. f_equal.
    + apply rsum_ext. intros j J. now rewrite app_nth1.
    + rewrite app_nth2, Nat.sub_diag by lia. cbn [nth]. ring.
  - replace (- rsum M (fun i => rsum w (fun j => sgn (w_idx w) (w_loc w) (i * w + j) l))) with (rsum M (fun i => -1 * rsum w (fun j => sgn (w_idx w) (w_loc w) (i * w + j) l))) by (rewrite <- rsum_scale; ring).
    apply rsum_ext. intros i I. rewrite ones_rsum.
    rewrite (rsum_ext w (fun j => sgn (w_idx w) (w_loc w) (i * w + j) l) (fun j => 1 + -2 * b2r (N.testbit (nth i l 0%N) (N.of_nat j)))).
    + rewrite <- rsum_plus, <- rsum_scale, rsum_const. ring.
    + intros j J. unfold sgn, digit_at, digit_of. rewrite one_bit, INR_b2n. unfold w_idx, w_loc.
      replace ((i * w + j) / w)%nat with i by (rewrite Nat.div_add_l, Nat.div_small by lia; lia).
      replace ((i * w + j) mod w)%nat with j by (rewrite Nat.add_comm, Nat.mod_add, Nat.mod_small by lia; lia). ring.
Qed.
Lemma monobit_mean w M : (1 <= w)%nat -> average (matrices (N.of_nat w) M) (ones_minus_zeros w) = 0.
Proof.
  intro W. rewrite (average_ext _ _ (fun l => -1 * total_sign (M * w) (w_idx w) (w_loc w) l)).
  - rewrite average_scale. pose proof (sign_mean _ M (M * w) _ _ (w_ok w M W)) as E. rewrite E. ring.
  - intros l I. apply in_matrices in I. rewrite (monobit_sign w M) by (assumption || apply I). ring.
Qed.
Lemma monobit_square w M : (1 <= w)%nat -> average (matrices (N.of_nat w) M) (fun l => ones_minus_zeros w l ^ 2) = INR (w * M).
Proof.
  intro W. rewrite (average_ext _ _ (fun l => total_sign (M * w) (w_idx w) (w_loc w) l ^ 2)).
  - rewrite (sign_square _ M (M * w) _ _ (w_ok w M W)). f_equal. lia.
  - intros l I. apply in_matrices in I. rewrite (monobit_sign w M) by (assumption || apply I). ring.
Qed.

(** ** monobit in sts_serial *)
Lemma zeros_sign M l : length l = M -> (1 <= M)%nat -> zeros_minus_ones l = total_sign (32 * M) m_idx m_loc l.
Proof.
  intros E HM. unfold zeros_minus_ones, total_sign, S. rewrite !often_sum, E, <- rsum_minus. apply rsum_ext. intros t T.
  unfold cyclic_window. rewrite window_code. cbn [seq map]. rewrite N.add_0_r, m_bit, E, Nat.mod_small by exact T. unfold sgn.
  assert (D : digit_at 1 m_idx m_loc t l = 0%N \/ digit_at 1 m_idx m_loc t l = 1%N) by (unfold digit_at, digit_of; rewrite one_bit; destruct (N.testbit _ _); cbn; auto).
  change (code 2 [digit_at 1 m_idx m_loc t l]) with (0 * 2 + digit_at 1 m_idx m_loc t l)%N. destruct D as [-> | ->]; bits; unfold b2r; cbn [N.mul N.add N.of_nat N.eqb Pos.of_succ_nat Pos.eqb]; ring.
Qed.
Lemma zeros_mean M : (1 <= M)%nat -> average (matrices 32 M) zeros_minus_ones = 0.
Proof.
  intro HM. rewrite <- (sign_mean _ M (32 * M) _ _ (m_ok M)). apply average_ext. intros l I. apply in_matrices in I. apply zeros_sign; [apply I|exact HM].
Qed.

(** ** runs *)
Definition r_idx (w M p : nat) : nat := (M - 1 - p / w)%nat.
Lemma r_ok w M : (1 <= w)%nat -> places (N.of_nat w) M (w * M) 1 (r_idx w M) (w_loc w).
Proof.
  intro W. unfold r_idx, w_loc. split; [|split].
  - intros p Hp. destruct M as [|k]; [rewrite Nat.mul_0_r in Hp; lia|]. generalize (p / w)%nat. intro x. lia.
  - intros p j Hp J. pose proof (Nat.mod_upper_bound p w). lia.
  - intros p q i j Hp Hq I J E F. change (N.of_nat 1) with 1%N in *. split; [|lia]. apply (div_mod_inj w); [exact W| |lia].
    assert (p / w < M)%nat by (apply Nat.div_lt_upper_bound; lia). assert (q / w < M)%nat by (apply Nat.div_lt_upper_bound; lia). lia.
Qed.
Lemma r_bit w l p : (1 <= w)%nat -> (1 <= length l)%nat -> b2n (cyclic_lsb_bit (N.of_nat w) l (N.of_nat p)) = digit_at 1 (r_idx w (length l)) (w_loc w) (p mod (w * length l)) l.
Proof.
  intros W HL. unfold digit_at, digit_of. rewrite one_bit. f_equal. unfold cyclic_lsb_bit, r_idx, w_loc.
  replace (N.of_nat w * N.of_nat (length l))%N with (N.of_nat (w * length l)) by lia.
  rewrite <- Nat2N.inj_mod, <- Nat2N.inj_div, <- Nat2N.inj_mod, Nat2N.id. reflexivity.
Qed.
Lemma r_sign w l p : (1 <= w)%nat -> (1 <= length l)%nat -> b2r (cyclic_lsb_bit (N.of_nat w) l (N.of_nat p)) = (1 - sgn (r_idx w (length l)) (w_loc w) (p mod (w * length l)) l) / 2.
Proof. intros W HL. rewrite <- INR_b2n, r_bit by assumption. unfold sgn. field. Qed.
Lemma bit_count_sum w l f : bit_count w l f = rsum (w * length l) (fun p => b2r (f (N.of_nat p))).
Proof. unfold bit_count. rewrite filter_b2r, lsumR_seq. reflexivity. Qed.
Lemma ones_sign w l : (1 <= w)%nat -> (1 <= length l)%nat -> ones_of w l = (INR (w * length l) - total_sign (w * length l) (r_idx w (length l)) (w_loc w) l) / 2.
Proof.
  intros W HL. unfold ones_of, total_sign, S. rewrite bit_count_sum. set (n := (w * length l)%nat).
  rewrite (rsum_ext n _ (fun p => / 2 * (1 - sgn (r_idx w (length l)) (w_loc w) p l))).
  - rewrite <- rsum_scale, rsum_minus, rsum_const. field.
  - intros p Hp. rewrite r_sign by assumption. fold n. rewrite Nat.mod_small by exact Hp. field.
Qed.
Lemma changes_pairs w l : (1 <= w)%nat -> (1 <= length l)%nat -> changes_of w l = (INR (w * length l) - total_pairs (w * length l) (r_idx w (length l)) (w_loc w) l) / 2.
Proof.
  intros W HL. unfold changes_of, total_pairs, C. rewrite bit_count_sum. set (n := (w * length l)%nat).
  rewrite (rsum_ext n _ (fun p => / 2 * (1 - sgn (r_idx w (length l)) (w_loc w) p l * sgn (r_idx w (length l)) (w_loc w) (next n p) l))).
  - rewrite <- rsum_scale, rsum_minus, rsum_const. field.
  - intros p Hp. pose proof (r_sign w l p W HL) as E. pose proof (r_sign w l (p + 1) W HL) as F. fold n in E, F. rewrite Nat.mod_small in E by exact Hp. fold (next n p) in F.
    rewrite Nat2N.inj_add in F. change (N.of_nat 1) with 1%N in F.
    replace (sgn (r_idx w (length l)) (w_loc w) p l) with (1 - 2 * b2r (cyclic_lsb_bit (N.of_nat w) l (N.of_nat p))) by (rewrite E; field).
    replace (sgn (r_idx w (length l)) (w_loc w) (next n p) l) with (1 - 2 * b2r (cyclic_lsb_bit (N.of_nat w) l (N.of_nat p + 1))) by (rewrite F; field).
    destruct (cyclic_lsb_bit _ _ (N.of_nat p)), (cyclic_lsb_bit _ _ (N.of_nat p + 1)); cbn; field.
Qed.
Section Runs.
Variable w M : nat.
Hypothesis W : (1 <= w)%nat.
Hypothesis n3 : (3 <= w * M)%nat.
Let n := INR (w * M).
Let D := total_sign (w * M) (r_idx w M) (w_loc w).
Let E := total_pairs (w * M) (r_idx w M) (w_loc w).
Lemma n_pos : 0 < n.
Proof. apply lt_0_INR. lia. Qed.
Lemma difference l : length l = M -> changes_of w l - changes_expected w l = (D l ^ 2 / n - E l) / 2.
Proof.
  intro L. assert (HL : (1 <= length l)%nat) by (destruct l; cbn in *; [subst; lia|lia]). pose proof n_pos.
  unfold changes_expected. rewrite changes_pairs, ones_sign by assumption. rewrite L. fold n D E. field. lra.
Qed.
Lemma sigma_square l : length l = M -> changes_sigma w l ^ 2 = n / 4 - D l ^ 2 / (2 * n) + D l ^ 4 / (4 * n ^ 3).
Proof.
  intro L. assert (HL : (1 <= length l)%nat) by (destruct l; cbn in *; [subst; lia|lia]). pose proof n_pos.
  unfold changes_sigma. rewrite ones_sign by assumption. rewrite L. fold n D.
  replace ((2 * sqrt n * ((n - D l) / 2 / n) * (1 - (n - D l) / 2 / n)) ^ 2) with (4 * (sqrt n * sqrt n) * ((n - D l) / 2 / n) ^ 2 * (1 - (n - D l) / 2 / n) ^ 2) by ring.
  rewrite sqrt_sqrt by lra. field. lra.
Qed.
Let all := matrices (N.of_nat w) M.
Lemma len l : In l all -> length l = M.
Proof. intro I. apply in_matrices in I. apply I. Qed.
Lemma D2 : average all (fun l => D l ^ 2) = n.
Proof. apply (sign_square (N.of_nat w) M (w * M) _ _ (r_ok w M W)). Qed.
Lemma D4 : average all (fun l => D l ^ 4) = 3 * n ^ 2 - 2 * n.
Proof. apply (sign_fourth (N.of_nat w) M (w * M) _ _ (r_ok w M W)). Qed.
Lemma E1 : average all E = 0.
Proof. apply (pairs_mean (N.of_nat w) M (w * M) _ _ (r_ok w M W) n3). Qed.
Lemma E2 : average all (fun l => E l ^ 2) = n.
Proof. apply (pairs_square (N.of_nat w) M (w * M) _ _ (r_ok w M W) n3). Qed.
Lemma DE : average all (fun l => D l ^ 2 * E l) = 2 * n.
Proof. apply (sign_pairs (N.of_nat w) M (w * M) _ _ (r_ok w M W) n3). Qed.
Lemma difference_mean : average all (fun l => changes_of w l - changes_expected w l) = 1 / 2.
Proof.
  pose proof n_pos. rewrite (average_ext _ _ (fun l => / (2 * n) * D l ^ 2 - / 2 * E l)) by (intros l I; rewrite difference by (apply len, I); field; lra).
  rewrite average_minus, !average_scale, D2, E1. field. lra.
Qed.
Lemma difference_variance : average all (fun l => (changes_of w l - changes_expected w l - 1 / 2) ^ 2) = (n - 2 - 2 / n) / 4.
Proof.
  pose proof n_pos.
  rewrite (average_ext _ _ (fun l => / (4 * n ^ 2) * D l ^ 4 + (/ 4 * E l ^ 2 + (- / (2 * n) * (D l ^ 2 * E l) + (- / (2 * n) * D l ^ 2 + (/ 2 * E l + 1 / 4))))))
    by (intros l I; rewrite difference by (apply len, I); field; lra).
  rewrite !average_plus, !average_scale, D4, E2, DE, D2, E1, average_const by apply d_ne. field. lra.
Qed.
Lemma sigma_mean : average all (fun l => changes_sigma w l ^ 2) = (n - 2 + 3 / n - 2 / n ^ 2) / 4.
Proof.
  pose proof n_pos.
  rewrite (average_ext _ _ (fun l => / (4 * n ^ 3) * D l ^ 4 + (- / (2 * n) * D l ^ 2 + n / 4)))
    by (intros l I; rewrite sigma_square by (apply len, I); field; lra).
  rewrite !average_plus, !average_scale, D4, D2, average_const by apply d_ne. field. lra.
Qed.
End Runs.
