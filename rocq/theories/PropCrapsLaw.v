(** Theorems C122, C123: the expected values of diehard_craps. *)
From Coq Require Import Lia Lra.
From Verif Require Import BaseLemmas CountLemmas CrapsLaw2 PropCraps.
From Verif Require Export CrapsLawSpec.
Open Scope R_scope.

(** ** C122: the law of the games *)

(** Of the 36^L equally likely sequences of 2L rolls, the share in which the
    games have given results is the product of the probabilities of the results;
    so the games are independent, and [game_law] is their law. *)
Theorem C122_games : forall results L, (throws_of results <= L)%nat -> exists n,
  exactly (36 ^ L) (rolls_of L) /\
  exactly n (fun l => rolls_of L l /\ exists c', series (rolled l) 0 results c') /\
  INR n = INR (36 ^ L) * series_law results.
Proof.
  intros rs L H. set (all := tuples die (2 * L)). exists (length (filter (fun l => series_of rs (pairup l)) all)).
  assert (PL : forall l, rolls_of L l -> (exists c', series (rolled l) 0 rs c') <-> series_of rs (pairup l) = true).
  { intros l R. rewrite <- (skipn_O (pairup l)). apply (series_ok L l R rs 0). lia. }
  assert (NL : INR (length all) = INR (36 ^ L)).
  { rewrite pow_INR. replace (INR 36) with 36 by (rewrite INR_IZR_INZ; reflexivity). pose proof (Pr_one L) as E. unfold Pr in E. fold all in E. rewrite lsumR_const in E.
    assert (P : 36 ^ L <> 0) by (apply pow_nonzero; lra). apply (f_equal (fun x => x * 36 ^ L)) in E. unfold Rdiv in E. rewrite Rmult_assoc, Rinv_l in E by exact P. lra. }
  split; [|split].
  - exists all. split; [apply tuples_nodup, die_nodup|]. split; [intro l; apply in_rolls|]. now apply INR_eq.
  - apply counted; [apply tuples_nodup, die_nodup|]. intro l. unfold all. rewrite in_rolls. split; intros (R & S); (split; [exact R|]); now apply PL.
  - rewrite filter_count, <- NL. rewrite <- (series_of_law rs L H). unfold Pr. fold all. rewrite NL, pow_INR. replace (INR 36) with 36 by (rewrite INR_IZR_INZ; reflexivity). field. apply pow_nonzero. lra.
Qed.
(** For such a sequence the program counts exactly these games. *)
Theorem C122_program : forall results L l c', rolls_of L l -> series (rolled l) 0 results c' ->
  exists need x, forall fuel, (need <= fuel)%nat ->
    craps (rolled l) fuel (length results) 0 = Ok (x, countp snd results, c') /\ length x = 21%nat /\ tallies x (map throws_bin results).
Proof.
  intros rs L l c' (_ & B) S. destruct (C38_craps (rolled l)) with (results := rs) (c := 0%nat) (c' := c') as (need & x & H).
  - intro i. unfold rolled. destruct (Nat.lt_ge_cases i (length l)) as [I|I]; [apply B, nth_In, I|]. rewrite nth_overflow by exact I. lia.
  - exact S.
  - exists need, x. intros fuel F. destruct (H fuel F) as (E & N & T & _). auto.
Qed.

(** ** C123: the expected values *)
Lemma powerRZ_nat x k : powerRZ x (Z.of_nat (S k) - 1) = x ^ k.
Proof. replace (Z.of_nat (S k) - 1)%Z with (Z.of_nat k) by lia. symmetry. apply pow_powerRZ. Qed.
Ltac as_reals := match goal with |- @eq _ ?a ?b => change (@eq R a b) end.
Lemma craps_y_law k : craps_y reals (Z.of_nat (S k)) = length_law (S (S k)).
Proof.
  unfold craps_y. cbn [nlit nint ndiv nadd nmul npow reals]. rewrite !powerRZ_nat, law_length. unfold q4, q5, q6. replace (27 / 1 / (36 / 1)) with (27 / 36) by field.
  replace (13 / 1 / (18 / 1)) with (13 / 18) by field. replace (25 / 1 / (36 / 1)) with (25 / 36) by field. as_reals. field.
Qed.
Lemma fill_law n : forall i y sum, craps_fill reals n (Z.of_nat (S i)) y sum =
  (y ++ map (fun k => length_law (S (S k))) (seq i n), fold_left (fun s k => s + length_law (S (S k))) (seq i n) sum).
Proof.
  induction n as [|n IH]; intros i y sum; cbn [craps_fill seq map fold_left]; [now rewrite app_nil_r|]. rewrite craps_y_law. replace (Z.of_nat (S i) + 1)%Z with (Z.of_nat (S (S i))) by lia.
  rewrite IH. f_equal. now rewrite <- app_assoc.
Qed.
Definition last_bin : R := (108 * q4 ^ 19 + 144 * q5 ^ 19 + 180 * q6 ^ 19) / 648.
Lemma expected_law ts : craps_expected reals ts = map (fun v => v * IZR ts) (map (fun k => length_law (S k)) (seq 0 20) ++ [last_bin]).
Proof.
  unfold craps_expected. change 1%Z with (Z.of_nat 1) at 5. rewrite (fill_law 19 0). f_equal.
  change (seq 0 20) with (0%nat :: map S (seq 0 19)). cbn [map app]. rewrite map_map. apply f_equal2; [|apply f_equal2; [reflexivity|]].
  - unfold length_law. cbn [game_law nlit ndiv reals]. cbv [ways2]. as_reals. lra.
  - apply f_equal2; [|reflexivity].
    assert (E : forall n, fold_left (fun s k => s + length_law (S (S k))) (seq 0 (S n)) (ndiv reals (nlit reals 1 1) (nlit reals 3 1)) = 1 / 3 + sum_f_R0 (fun j => length_law (2 + j)) n).
    { induction n as [|n IH]; [cbn; lra|]. rewrite seq_S, fold_left_app, IH. cbn [fold_left sum_f_R0 Nat.add]. ring. }
    etransitivity; [apply (f_equal (nsub reals (nlit reals 1 1))); exact (E 18%nat)|]. rewrite (tail_sum 0 18). unfold last_bin. cbn [nlit nsub reals Nat.add]. as_reals. change (q4 ^ 0) with 1. change (q5 ^ 0) with 1. change (q6 ^ 0) with 1. field.
Qed.
(** For k < 20 the k-th entry is the number of samples times the probability that
    a game takes k + 1 throws. *)
Theorem C123_throws : forall tsamples k, (k < 20)%nat ->
  nth_error (craps_expected reals tsamples) k = Some (length_law (S k) * IZR tsamples).
Proof.
  intros ts k K. rewrite expected_law, map_app, nth_error_app1 by (now rewrite !map_length, seq_length). rewrite map_map.
  rewrite (map_nth_error _ k _ (d := k)); [reflexivity|]. rewrite (nth_error_nth' _ 0%nat) by (now rewrite seq_length). now rewrite seq_nth.
Qed.
(** The last entry is the number of samples times the probability that it takes
    21 throws or more, and there are 21 entries. *)
Theorem C123_last : forall tsamples, length (craps_expected reals tsamples) = 21%nat /\ exists p,
  infinite_sum (fun j => length_law (21 + j)) p /\ nth_error (craps_expected reals tsamples) 20 = Some (p * IZR tsamples).
Proof.
  intro ts. rewrite expected_law. split; [reflexivity|]. exists last_bin. split; [exact (tail_limit 19)|]. rewrite map_app, nth_error_app2 by (rewrite !map_length, seq_length; lia).
  rewrite !map_length, seq_length. reflexivity.
Qed.
(** Every game ends, and 244/495 of them are won. *)
Theorem C123_wins : infinite_sum (fun j => game_law (S j, true)) (craps_p reals) /\ infinite_sum (fun j => game_law (S j, false)) (1 - craps_p reals).
Proof.
  assert (P : craps_p reals = 244 / 495) by (unfold craps_p; cbn [ndiv nlit reals]; as_reals; field). rewrite P. split; [apply won_limit|]. replace (1 - 244 / 495) with (251 / 495) by field. apply lost_limit.
Qed.
(** The number of wins in n games has mean y and standard deviation sigma. *)
Theorem C123_win_moments : forall n, let y := craps_wins_y reals (Z.of_nat n) in let sigma := craps_wins_sigma reals (Z.of_nat n) in
  Un_cv (fun M => mean_over M n (fun rs => y - games_won rs)) 0 /\
  Un_cv (fun M => mean_over M n (fun rs => (y - games_won rs) ^ 2)) (sigma ^ 2).
Proof.
  intros n y sigma. assert (P : craps_p reals = 244 / 495) by (unfold craps_p; cbn [ndiv nlit reals]; as_reals; field).
  assert (Y : y = INR n * (244 / 495)) by (unfold y, craps_wins_y; rewrite P; cbn [nmul nint reals]; rewrite <- INR_IZR_INZ; reflexivity).
  assert (S2 : sigma ^ 2 = INR n * (244 / 495) * (251 / 495)).
  { unfold sigma, craps_wins_sigma. fold y. rewrite P, Y. cbn [nsqrt nmul nsub nlit reals]. rewrite pow2_sqrt; [field|]. pose proof (pos_INR n). apply Rmult_le_pos; lra. }
  split.
  - replace 0 with (y - INR n * (244 / 495)) by (rewrite Y; ring). apply (moments_limit (fun x => x) (fun n c => c - INR n * (244 / 495))); intros; [cbn [INR]; ring|]. rewrite S_INR. field.
  - rewrite S2. replace (INR n * (244 / 495) * (251 / 495)) with (INR n * (244 / 495) * (251 / 495) + (y - INR n * (244 / 495)) ^ 2) by (rewrite Y; ring).
    apply (moments_limit (fun x => x ^ 2) (fun n c => INR n * (244 / 495) * (251 / 495) + (c - INR n * (244 / 495)) ^ 2)); intros; [cbn [INR]; ring|]. rewrite S_INR. field.
Qed.
(** A game won with its first throw (3 and 4) and one lost with its third (the
    point 5, then 8, then 7). *)
Example C122_ex : let l := [3; 4; 2; 3; 4; 4; 1; 6]%N in
  rolls_of 4 l /\ series (rolled l) 0 [(1%nat, true); (3%nat, false)] 8 /\ throws_of [(1%nat, true); (3%nat, false)] = 4%nat /\
  series_law [(1%nat, true); (3%nat, false)] = 8 / 36 * (2 * (3 / 36 * (27 / 36) * (6 / 36)) + 2 * (4 / 36 * (26 / 36) * (6 / 36)) + 2 * (5 / 36 * (25 / 36) * (6 / 36))).
Proof.
  split; [split; [reflexivity|]|split; [|split; [reflexivity|]]].
  - cbn [In]. intros x X. lia.
  - apply (one_more _ 0 1 true _ 8); [apply natural; left; reflexivity|]. apply (one_more _ 2 3 false _ 8); [|apply no_game]. apply seven_out; [cbn; intuition discriminate| |lia|reflexivity].
    intros i I. replace i with 1%nat by lia. cbn. split; discriminate.
  - cbn [series_law fold_right game_law points pow]. cbv [ways2]. field.
Qed.

Print Assumptions C122_games.
Print Assumptions C122_program.
Print Assumptions C123_throws.
Print Assumptions C123_last.
Print Assumptions C123_wins.
Print Assumptions C123_win_moments.
