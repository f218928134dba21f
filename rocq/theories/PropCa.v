(** Properties C29, C30, C82 for the cellular automaton generator. *)
From Verif Require Import CaModel CaLemmas GensSpec GensLemmas BaseLemmas.
Open Scope N_scope.

(** Any state before the first seeding: only the global seed matters. *)
Definition ca_start (g : N) : castate := mkCA (repeat 0 2056) 2055 g.
Lemma ca_start_good g : cagood (ca_start g) 513.
Proof.
  constructor; [reflexivity| |lia|reflexivity].
  apply Forall_forall. intros x Hx. apply repeat_spec in Hx. subst x. reflexivity.
Qed.

(** C29: every number of the automaton is within the declared maximum, it never
    leaves its arrays, and its loop of 1056784 steps ends, for every global
    seed and every history of seedings and draws. *)
Theorem C29_ca : forall g, stays_within ca_set ca_get (2 ^ 32 - 1) (ca_start g) /\ never_fails ca_set ca_get (ca_start g).
Proof.
  intro g. split.
  - intros ops vs st' H.
    refine (proj1 (run_inv ca_set ca_get (fun st => exists k, cagood st k) _ _ _ ops _ vs st' _ H)).
    + intros st s st2 _ E. destruct (ca_set_ok st s) as (u & F & G & _). rewrite F in E. exists 513%nat. congruence.
    + intros st v st2 (k & G) E. destruct (ca_get_inv _ _ _ _ G E) as (V & G' & _).
      split; [apply lt_max; exact V|]. exists (before k). exact G'.
    + exists 513%nat. apply ca_start_good.
  - apply (run_ok _ _ (fun st => exists k, cagood st k)).
    + intros st s _. destruct (ca_set_ok st s) as (u & F & G & _). exists u. split; [exact F|]. exists 513%nat. exact G.
    + intros st (k & G). destruct (ca_get_ok st k G) as (l & E & _ & G'). eexists. eexists. split; [exact E|]. exists (before k). exact G'.
    + exists 513%nat. apply ca_start_good.
Qed.
Example C29_ca_ex : exists st, draws ca_get 3 (ca_start 5) = Ok ([1684300900; 1684300900; 1684300900], st).
Proof. eexists. vm_compute. reflexivity. Qed.
Print Assumptions C29_ca.

Lemma after_same {S} (set : S -> N -> outcome S) get h s s' n st0 : (forall st, set st s = set st s') ->
  after set get h s n st0 = after set get h s' n st0.
Proof.
  intro H. unfold after. destruct (run set get h st0) as [[vs st]| | |]; try reflexivity.
  cbn [bind run]. rewrite H. reflexivity.
Qed.
Lemma after_gen {S} (set : S -> N -> outcome S) get h s n st0 vs st' st2 ws t :
  run set get h st0 = Ok (vs, st') -> set st' s = Ok st2 -> draws get n st2 = Ok (ws, t) ->
  after set get h s n st0 = Ok ws.
Proof.
  intros H E D. unfold after. rewrite H. cbn [bind run]. rewrite E. cbn [bind]. rewrite run_draws, D. reflexivity.
Qed.
Lemma run_seed {S} (set : S -> N -> outcome S) get s st st' : set st s = Ok st' -> run set get [Seed s] st = Ok ([], st').
Proof. intro H. cbn [run]. rewrite H. reflexivity. Qed.
Lemma after_ca h s n st vs st' : run ca_set ca_get h st = Ok (vs, st') -> exists st2 ws t,
  ca_set st' s = Ok st2 /\ draws ca_get n st2 = Ok (ws, t) /\ after ca_set ca_get h s n st = Ok ws.
Proof.
  intro H. destruct (ca_set_ok st' s) as (st2 & E & G & _). destruct (ca_draws n _ _ G) as (ws & t & D & _).
  exists st2, ws, t. split; [exact E|]. split; [exact D|]. exact (after_gen _ _ _ _ _ _ _ _ _ _ _ H E D).
Qed.

(** C30: the seed handed to the generator is ignored: whatever happened
    before, all seeds give the same numbers. *)
Theorem C30_ca_ignored : forall g history s s' n,
  after ca_set ca_get history s n (ca_start g) = after ca_set ca_get history s' n (ca_start g).
Proof.
  intros g history s s' n. apply after_same. intro st. rewrite !ca_set_eq. exact eq_refl.
Qed.
Lemma succ_mod g : (g + 1) mod 256 <> g mod 256.
Proof. intro E. pose proof (N.div_mod (g + 1) 256 ltac:(discriminate)). pose proof (N.div_mod g 256 ltac:(discriminate)).
  rewrite E in H. clear E. generalize dependent (g mod 256). generalize dependent ((g + 1) / 256). generalize dependent (g / 256). intros. lia.
Qed.
(** Reseeding with the same seed never reproduces the numbers: the first 514
    numbers always differ, since the global seed has been counted up. *)
Theorem C30_ca_refuted : forall g s, g < 2 ^ 32 - 1 ->
  after ca_set ca_get [] s 514 (ca_start g) <> after ca_set ca_get [Seed s] s 514 (ca_start g).
Proof.
  intros g s Hg E. change (2 ^ 32) with 4294967296 in Hg.
  destruct (after_ca [] s 514 (ca_start g) [] (ca_start g) eq_refl) as (a & va & ta & Sa & Da & Ea).
  destruct (ca_set_ok (ca_start g) s) as (st1 & S1 & G1 & N1).
  pose proof (run_seed ca_set ca_get s _ _ S1) as H1.
  destruct (after_ca [Seed s] s 514 (ca_start g) [] st1 H1) as (b & vb & tb & Sb & Db & Eb).
  rewrite Ea, Eb in E. assert (vb = va) by congruence. subst vb.
  pose proof (ca_set_see _ _ _ _ _ _ _ _ _ Sa Sb Da Db) as C.
  rewrite N1 in C. change (gseed (ca_start g)) with g in C.
  assert (Eg : seed_next g = g + 1).
  { unfold seed_next. destruct (N.eqb_spec g 4294967295); [lia|]. apply w64_small. change (2 ^ 64) with 18446744073709551616. lia. }
  rewrite Eg in C. apply (f_equal (fun l => nth 2055 l 0)) in C. rewrite !ca_init_last in C.
  symmetry in C. exact (succ_mod g C).
Qed.
Example C30_ca_ex : after ca_set ca_get [] 7 514 (ca_start 41) <> after ca_set ca_get [Seed 7] 7 514 (ca_start 41).
Proof. apply C30_ca_refuted. reflexivity. Qed.
Print Assumptions C30_ca_refuted.

(** C82: different global seeds give different sequences, seen within the first
    514 numbers: the automaton's steps can be undone. *)
Lemma cells_seed a b : a < 2 ^ 32 -> b < 2 ^ 32 ->
  (forall i, (i < 2052)%nat -> N.shiftr a (N.of_nat i mod 32) mod 256 = N.shiftr b (N.of_nat i mod 32) mod 256) -> a = b.
Proof.
  intros Ha Hb H. apply N.bits_inj. intro j. destruct (N.lt_ge_cases j 32) as [C|C].
  - specialize (H (N.to_nat j)). rewrite N2Nat.id in H. rewrite (N.mod_small j 32) in H by exact C.
    assert (L : (N.to_nat j < 2052)%nat) by lia. specialize (H L).
    apply (f_equal (fun x => N.testbit x 0)) in H. change 256 with (2 ^ 8) in H.
    rewrite !testbit_mod, !testbit_shiftr in H. exact H.
  - rewrite !testbit_lt32 by assumption. reflexivity.
Qed.
Theorem C82_ca_seeds : forall g1 g2 s1 s2, g1 < 2 ^ 32 -> g2 < 2 ^ 32 -> g1 <> g2 ->
  after ca_set ca_get [] s1 514 (ca_start g1) <> after ca_set ca_get [] s2 514 (ca_start g2).
Proof.
  intros g1 g2 s1 s2 H1 H2 D E.
  destruct (after_ca [] s1 514 (ca_start g1) [] (ca_start g1) eq_refl) as (a & va & ta & Sa & Da & Ea).
  destruct (after_ca [] s2 514 (ca_start g2) [] (ca_start g2) eq_refl) as (b & vb & tb & Sb & Db & Eb).
  rewrite Ea, Eb in E. assert (vb = va) by congruence. subst vb.
  pose proof (ca_set_see _ _ _ _ _ _ _ _ _ Sa Sb Da Db) as C.
  change (gseed (ca_start g1)) with g1 in C. change (gseed (ca_start g2)) with g2 in C. clear - H1 H2 D C.
  assert (S1 : forall g, g < 2 ^ 32 -> seed_next g < 2 ^ 32 /\ (seed_next g = g + 1 \/ (g = 4294967295 /\ seed_next g = g))).
  { intros g Hg. change (2 ^ 32) with 4294967296 in *. unfold seed_next. destruct (N.eqb_spec g 4294967295); [split; [lia|auto]|].
    rewrite w64_small by (change (2 ^ 64) with 18446744073709551616; lia). split; [lia|auto]. }
  destruct (S1 g1 H1) as (B1 & A1). destruct (S1 g2 H2) as (B2 & A2).
  assert (Es : seed_next g1 = seed_next g2).
  { apply cells_seed; auto. intros i Hi. rewrite <- !ca_init_cell with (seed := g1) by exact Hi.
    rewrite C. rewrite !ca_init_cell by exact Hi. reflexivity. }
  apply (f_equal (fun l => nth 2055 l 0)) in C. rewrite !ca_init_last in C.
  pose proof (succ_mod g1). pose proof (succ_mod g2).
  destruct A1 as [A1|[Q1 A1]], A2 as [A2|[Q2 A2]].
  - apply D. lia.
  - assert (g1 + 1 = g2) by congruence. subst g2. congruence.
  - assert (g2 + 1 = g1) by congruence. subst g1. congruence.
  - apply D. congruence.
Qed.
Example C82_ca_ex : after ca_set ca_get [] 7 514 (ca_start 41) <> after ca_set ca_get [] 7 514 (ca_start 42).
Proof. apply C82_ca_seeds; [reflexivity|reflexivity|discriminate]. Qed.
Print Assumptions C82_ca_seeds.
