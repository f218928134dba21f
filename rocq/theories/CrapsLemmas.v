From Verif Require Import BaseLemmas TallyLemmas CrapsModel CrapsSpec.
Open Scope N_scope.

Section Dice.
Variable dice : nat -> N.
Hypothesis faces : forall i, 1 <= dice i <= 6.

Lemma throw2_eq : forall c i, throw2 dice (c + 2 * i) = (throws_from dice c i, (c + 2 * S i)%nat).
Proof.
  intros c i. unfold throw2, throws_from, add32. pose proof (faces (c + 2 * i)). pose proof (faces (S (c + 2 * i))).
  rewrite w32_small by lia. f_equal; [|lia]. f_equal. f_equal. lia.
Qed.

(** the second part of a game *)
Lemma again_ok : forall fuel c i tries, 
  tries = N.of_nat (Nat.min i 20) -> 
  ~ In (throws_from dice c 0) [7; 11; 2; 3; 12] ->
  (forall j, (0 < j < S i)%nat -> throws_from dice c j <> 7 /\ throws_from dice c j <> throws_from dice c 0) ->
  match throw_again dice fuel (throws_from dice c 0) tries (c + 2 * S i) with
  | Ok (b, won, c') => exists n, (S i < n)%nat /\ plays (throws_from dice c) n won /\
      b = Z.of_nat (Nat.min (n - 1) 20) /\ c' = (c + 2 * n)%nat
  | OutOfFuel => forall n won, plays (throws_from dice c) n won -> (S i + fuel < n)%nat
  | _ => False
  end.
Proof.
  induction fuel; intros c i tries Ht P B; cbn [throw_again].
  - intros n won G. inversion G; subst.
    + exfalso. apply P. cbn. destruct H; auto.
    + exfalso. apply P. cbn. intuition.
    + destruct (Nat.le_gt_cases n0 i) as [L|L]; [|lia]. exfalso. destruct (B n0 ltac:(lia)) as [_ X]. apply X. assumption.
    + destruct (Nat.le_gt_cases n0 i) as [L|L]; [|lia]. exfalso. destruct (B n0 ltac:(lia)) as [X _]. apply X. assumption.
  - rewrite throw2_eq.
    assert (Ht' : (if tries <? 20 then tries + 1 else tries) = N.of_nat (Nat.min (S i) 20)).
    { rewrite Ht. destruct (N.ltb_spec (N.of_nat (Nat.min i 20)) 20); lia. }
    rewrite Ht'. destruct (N.eqb_spec (throws_from dice c (S i)) 7) as [E7|N7].
    + exists (S (S i)). split; [lia|]. split; [apply seven_out; auto; lia|]. split; [|reflexivity]. lia.
    + destruct (N.eqb_spec (throws_from dice c (S i)) (throws_from dice c 0)) as [Ep|Np].
      * exists (S (S i)). split; [lia|]. split; [apply point_made; auto; lia|]. split; [|reflexivity]. lia.
      * specialize (IHfuel c (S i) _ eq_refl P).
        assert (B' : forall j, (0 < j < S (S i))%nat -> throws_from dice c j <> 7 /\ throws_from dice c j <> throws_from dice c 0).
        { intros j Hj. destruct (Nat.eq_dec j (S i)) as [->|Nj]; [auto|]. apply B. lia. }
        specialize (IHfuel B').
        destruct (throw_again dice fuel (throws_from dice c 0) (N.of_nat (Nat.min (S i) 20)) (c + 2 * S (S i))) as [[[b won] c']| | |]; auto.
        -- destruct IHfuel as (n & Hn & G). exists n. split; [lia|exact G].
        -- intros n won G. specialize (IHfuel n won G). lia.
Qed.

Lemma game_ok : forall fuel c,
  match game dice fuel c with
  | Ok (b, won, c') => exists n, plays (throws_from dice c) n won /\
      b = Z.of_nat (Nat.min (n - 1) 20) /\ c' = (c + 2 * n)%nat
  | OutOfFuel => forall n won, plays (throws_from dice c) n won -> (S fuel < n)%nat
  | _ => False
  end.
Proof.
  intros fuel c. unfold game. assert (Z0 : throw2 dice c = (throws_from dice c 0, (c + 2 * 1)%nat)) by (rewrite <- throw2_eq; f_equal; lia).
  rewrite Z0.
  destruct (N.eqb_spec (throws_from dice c 0) 7) as [E|N1]; cbn [orb].
  { exists 1%nat. split; [apply natural; auto|]. split; reflexivity. }
  destruct (N.eqb_spec (throws_from dice c 0) 11) as [E|N2]; cbn [orb].
  { exists 1%nat. split; [apply natural; auto|]. split; reflexivity. }
  destruct (N.eqb_spec (throws_from dice c 0) 2) as [E|N3]; cbn [orb].
  { exists 1%nat. split; [apply craps_out; auto|]. split; reflexivity. }
  destruct (N.eqb_spec (throws_from dice c 0) 3) as [E|N4]; cbn [orb].
  { exists 1%nat. split; [apply craps_out; auto|]. split; reflexivity. }
  destruct (N.eqb_spec (throws_from dice c 0) 12) as [E|N5]; cbn [orb].
  { exists 1%nat. split; [apply craps_out; auto|]. split; reflexivity. }
  pose proof (again_ok fuel c 0 0 eq_refl) as A.
  assert (P : ~ In (throws_from dice c 0) [7; 11; 2; 3; 12]) by (cbn; intuition congruence).
  specialize (A P). assert (B : forall j, (0 < j < 1)%nat -> throws_from dice c j <> 7 /\ throws_from dice c j <> throws_from dice c 0) by (intros; lia).
  specialize (A B).
  destruct (throw_again dice fuel (throws_from dice c 0) 0 (c + 2 * 1)) as [[[b won] c']| | |]; auto.
  destruct A as (n & _ & G). exists n. exact G.
Qed.

Lemma plays_unique : forall t n won n' won', plays t n won -> plays t n' won' -> n = n' /\ won = won'.
Proof.
  intros t n won n' won' G H.
  destruct G as [A|A|k P B L E|k P B L E]; destruct H as [A'|A'|k' P' B' L' E'|k' P' B' L' E']; auto;
    try (exfalso; destruct A as [A|A]; destruct A' as [A'|[A'|A']]; congruence);
    try (exfalso; destruct A' as [A'|A']; destruct A as [A|[A|A]]; congruence);
    try (exfalso; apply P'; cbn; destruct A as [A|A]; rewrite A; tauto);
    try (exfalso; apply P'; cbn; destruct A as [A|[A|A]]; rewrite A; tauto);
    try (exfalso; apply P; cbn; destruct A' as [A'|A']; rewrite A'; tauto);
    try (exfalso; apply P; cbn; destruct A' as [A'|[A'|A']]; rewrite A'; tauto).
  - assert (k = k') as ->; [|auto]. destruct (Nat.lt_trichotomy k k') as [H|[H|H]]; auto; exfalso.
    + destruct (B' k ltac:(lia)). congruence. + destruct (B k' ltac:(lia)). congruence.
  - exfalso. destruct (Nat.lt_trichotomy k k') as [H|[H|H]].
    + destruct (B' k ltac:(lia)). congruence.
    + subst k'. apply P. cbn. rewrite <- E, E'. tauto.
    + destruct (B k' ltac:(lia)). congruence.
  - exfalso. destruct (Nat.lt_trichotomy k k') as [H|[H|H]].
    + destruct (B' k ltac:(lia)). congruence.
    + subst k'. apply P. cbn. rewrite <- E', E. tauto.
    + destruct (B k' ltac:(lia)). congruence.
  - assert (k = k') as ->; [|auto]. destruct (Nat.lt_trichotomy k k') as [H|[H|H]]; auto; exfalso.
    + destruct (B' k ltac:(lia)). congruence. + destruct (B k' ltac:(lia)). congruence.
Qed.

Definition craps_bin (r : nat * bool) : Z := Z.of_nat (Nat.min (fst r - 1) 20).

Lemma games_ok : forall rs fuel x wins c c' done_, series dice c rs c' ->
  (forall r, In r rs -> (fst r <= S fuel)%nat) -> length x = 21%nat -> tallies x (map craps_bin done_) ->
  exists x', games dice fuel (length rs) x wins c = Ok (x', wins + countp snd rs, c') /\ length x' = 21%nat /\
    tallies x' (map craps_bin (done_ ++ rs)).
Proof.
  induction rs as [|[n won] rs IH]; intros fuel x wins c c' dn Se F L T; inversion Se as [|? ? ? ? ? Hp Hs]; subst.
  - exists x. cbn [length games countp]. rewrite N.add_0_r, app_nil_r. auto.
  - cbn [length games]. pose proof (game_ok fuel c) as G.
    destruct (game dice fuel c) as [[[b w] c1]| | |]; try contradiction.
    + destruct G as (m & P & -> & ->). destruct (plays_unique _ _ _ _ _ P Hp) as [-> ->]. cbn [bind].
      destruct (tallies_bump x _ (Z.of_nat (Nat.min (n - 1) 20)) T) as (x1 & -> & L1 & T1); [lia|]. cbn [bind].
      destruct (IH fuel x1 (if won then wins + 1 else wins) (c + 2 * n)%nat c' (dn ++ [(n, won)])) as (x2 & E2 & L2 & T2); auto.
      * intros r I. apply F. right. exact I.
      * lia.
      * rewrite map_app. exact T1.
      * exists x2. rewrite E2. split; [|split; [exact L2|]].
        -- do 3 f_equal. cbn [countp snd]. destruct won; lia.
        -- rewrite <- app_assoc in T2. exact T2.
    + specialize (G n won Hp). specialize (F (n, won) (or_introl eq_refl)). cbn in F. lia.
Qed.
End Dice.
