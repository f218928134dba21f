(** Theorems C38, C57: diehard_craps. *)
From Verif Require Import BaseLemmas TallyLemmas CrapsModel CrapsSpec CrapsLemmas.
Open Scope N_scope.

(** The bin of a game: its number of throws less one, 21 and more together. *)
Definition throws_bin (r : nat * bool) : Z := Z.of_nat (Nat.min (fst r - 1) 20).

(** ** C38: whenever the games are decided, the test counts exactly them: as many
    wins as there were, and every game once, by its number of throws. *)
Theorem C38_craps : forall dice, (forall i, 1 <= dice i <= 6) ->
  forall results c c', series dice c results c' ->
  exists need x, forall fuel, (need <= fuel)%nat ->
    craps dice fuel (length results) c = Ok (x, countp snd results, c') /\
    length x = 21%nat /\ tallies x (map throws_bin results) /\ total x = N.of_nat (length results).
Proof.
  intros dice F rs c c' H. set (need := list_max (map fst rs)).
  assert (B : forall fuel, (need <= fuel)%nat -> forall r, In r rs -> (fst r <= S fuel)%nat).
  { intros fuel Hf r I. assert (fst r <= need)%nat; [|lia].
    pose proof (proj1 (list_max_le (map fst rs) need) (le_n _)) as L. rewrite Forall_forall in L.
    apply L, in_map, I. }
  unfold craps.
  destruct (games_ok dice F rs need (repeat 0 21) 0 c c' [] H (B need (le_n _)) eq_refl (tallies_nil 21)) as (x & E & L & T).
  exists need, x. intros fuel Hf.
  destruct (games_ok dice F rs fuel (repeat 0 21) 0 c c' [] H (B fuel Hf) eq_refl (tallies_nil 21)) as (x' & E' & L' & T').
  cbn [app] in *. rewrite N.add_0_l in E, E'.
  assert (x = x') as <-.
  { apply (nth_ext x x' 0 0); [congruence|]. intros k Hk. destruct T as [_ T], T' as [_ T'].
    rewrite (T k Hk), T' by congruence. reflexivity. }
  rewrite E'. split; [reflexivity|]. split; [exact L|]. split; [exact T|].
  rewrite (tallies_total _ _ T), map_length. reflexivity.
Qed.

(** ... and whenever the test finishes, the games were decided. *)
Theorem C38_only_craps : forall dice, (forall i, 1 <= dice i <= 6) ->
  forall fuel tsamples c x wins c', craps dice fuel tsamples c = Ok (x, wins, c') ->
  exists results, length results = tsamples /\ series dice c results c'.
Proof.
  intros dice F fuel n. unfold craps. generalize (repeat 0 21) as x0. generalize 0 as w0. revert n.
  induction n as [|n IH]; intros w0 x0 c x wins c' E; cbn [games] in E.
  - inversion E; subst. exists []. split; [reflexivity|constructor].
  - pose proof (game_ok dice F fuel c) as G.
    destruct (game dice fuel c) as [[[b won] c1]| | |]; cbn [bind] in E; try discriminate.
    destruct G as (m & P & -> & ->).
    destruct (bump x0 (Z.of_nat (Nat.min (m - 1) 20))) as [x1| | |]; cbn [bind] in E; try discriminate.
    destruct (IH _ _ _ _ _ _ E) as (rs & L & S). exists ((m, won) :: rs). split; [cbn; congruence|].
    econstructor; eassumption.
Qed.

(** Four games: a natural, a point made at once, a point lost after two throws,
    craps. *)
Definition ex_dice (i : nat) : N := nth i [3; 4; 2; 2; 1; 3; 5; 4; 1; 1; 2; 5; 1; 2] 1.
Example C38_ex : craps ex_dice 10 4 0 = Ok ([2; 1; 1; 0; 0; 0; 0; 0; 0; 0; 0; 0; 0; 0; 0; 0; 0; 0; 0; 0; 0], 2, 14%nat).
Proof. vm_compute. reflexivity. Qed.
Example C38_ex_hyp : (forall i, 1 <= ex_dice i <= 6) /\
  series ex_dice 0 [(1%nat, true); (2%nat, true); (3%nat, false); (1%nat, false)] 14.
Proof.
  split.
  - intro i. unfold ex_dice. destruct (Nat.lt_ge_cases i 14) as [H|H].
    + do 14 (destruct i as [|i]; [cbn; lia|]). lia.
    + rewrite nth_overflow by (cbn; lia). lia.
  - apply one_more; [apply natural; left; reflexivity|].
    apply one_more.
    { apply point_made; [cbn; intuition discriminate| |lia|reflexivity]. intros i Hi. lia. }
    apply one_more.
    { apply seven_out; [cbn; intuition discriminate| |lia|reflexivity]. intros i Hi.
      assert (i = 1%nat) as -> by lia. split; discriminate. }
    apply one_more; [apply craps_out; right; left; reflexivity|]. apply no_game.
Qed.

(** ** C57: does the test finish? *)

(** It does for every generator whose output is periodic from the start: the
    first throw of a game comes back after at most one period. *)
Theorem C57_periodic_finishes : forall dice period, (forall i, 1 <= dice i <= 6) ->
  (0 < period)%nat -> (forall i, dice (i + period)%nat = dice i) ->
  forall tsamples c, exists x wins c', craps dice period tsamples c = Ok (x, wins, c').
Proof.
  intros dice p F Hp P n c.
  assert (D : forall c, exists m won, plays (throws_from dice c) m won /\ (m <= S p)%nat).
  { clear c. intro c.
    assert (R : throws_from dice c p = throws_from dice c 0).
    { unfold throws_from. replace (c + 2 * p)%nat with (c + p + p)%nat by lia.
      replace (c + p + p + 1)%nat with (c + 1 + p + p)%nat by lia. rewrite !P. f_equal; f_equal; lia. }
    destruct (in_dec N.eq_dec (throws_from dice c 0) [7; 11; 2; 3; 12]) as [I|I].
    - exists 1%nat. cbn [In] in I. destruct I as [I|[I|[I|[I|[I|[]]]]]];
        [exists true|exists true|exists false|exists false|exists false]; (split; [|lia]);
        first [apply natural|apply craps_out]; auto.
    - (* the first i > 0 that decides *)
      assert (S : forall k, (forall i, (0 < i <= k)%nat -> throws_from dice c i <> 7 /\ throws_from dice c i <> throws_from dice c 0) \/
        exists m won, plays (throws_from dice c) m won /\ (m <= S k)%nat).
      { induction k as [|k IH]; [left; intros; lia|]. destruct IH as [A|(m & w & G & L)].
        - destruct (N.eq_dec (throws_from dice c (S k)) 7) as [E|N7].
          + right. exists (S (S k)), false. split; [|lia]. apply seven_out; auto; [|lia]. intros i Hi. apply A. lia.
          + destruct (N.eq_dec (throws_from dice c (S k)) (throws_from dice c 0)) as [E|Np].
            * right. exists (S (S k)), true. split; [|lia]. apply point_made; auto; [|lia]. intros i Hi. apply A. lia.
            * left. intros i Hi. destruct (Nat.eq_dec i (S k)) as [->|Ni]; [auto|]. apply A. lia.
        - right. exists m, w. split; [exact G|lia]. }
      destruct (S p) as [A|G]; [|exact G]. exfalso. destruct (A p ltac:(lia)) as [_ X]. contradiction. }
  assert (G : forall n c, exists rs c', length rs = n /\ series dice c rs c' /\ forall r, In r rs -> (fst r <= S p)%nat).
  { intro k0. induction k0 as [|k IH]; intro c0.
    - exists [], c0. split; [reflexivity|]. split; [constructor|]. intros r [].
    - destruct (D c0) as (m & w & Pl & L). destruct (IH (c0 + 2 * m)%nat) as (rs & c' & Lr & S & B).
      exists ((m, w) :: rs), c'. split; [cbn; congruence|]. split; [econstructor; eassumption|].
      intros r [<-|I]; [exact L|apply B, I]. }
  destruct (G n c) as (rs & c' & L & S & B).
  destruct (games_ok dice F rs p (repeat 0 21) 0 c c' [] S B eq_refl (tallies_nil 21)) as (x & E & _).
  unfold craps. rewrite <- L. eexists _, _, _. exact E.
Qed.

(** It does not for every generator: one that settles on a constant value after
    an even number of rolls, as input that goes bad does, can leave a game
    undecided for ever. *)
Theorem C57_always_finishes_refuted : exists dice, (forall i, 1 <= dice i <= 6) /\
  (forall i, (2 <= i)%nat -> dice i = 1) /\
  forall fuel, craps dice fuel 1 0 = OutOfFuel.
Proof.
  exists (fun i => match i with 0%nat => 3 | 1%nat => 1 | _ => 1 end).
  split; [|split].
  - intros [|[|i]]; lia.
  - intros [|[|i]] H; try lia; reflexivity.
  - intro fuel. unfold craps. cbn [games].
    assert (A : forall fuel tries c, (2 <= c)%nat ->
      throw_again (fun i => match i with 0%nat => 3 | 1%nat => 1 | _ => 1 end) fuel 4 tries c = OutOfFuel).
    { clear. induction fuel; intros tries c H; [reflexivity|]. cbn [throw_again].
      destruct c as [|[|c]]; try lia. unfold throw2.
      change (add32 1 1) with 2. change (2 =? 7) with false. change (2 =? 4) with false. cbn iota.
      apply IHfuel. lia. }
    unfold game, throw2. change (add32 3 1) with 4. cbn iota.
    change ((4 =? 7) || (4 =? 11)) with false. change ((4 =? 2) || (4 =? 3) || (4 =? 12)) with false. cbn iota.
    rewrite A by lia. reflexivity.
Qed.
Example C57_ex : exists x wins c', craps (fun i => N.of_nat (1 + (i * 5 mod 7) mod 6)) 7 50 0 = Ok (x, wins, c').
Proof. eexists _, _, _. vm_compute. reflexivity. Qed.

Print Assumptions C38_craps.
Print Assumptions C38_only_craps.
Print Assumptions C57_periodic_finishes.
Print Assumptions C57_always_finishes_refuted.
