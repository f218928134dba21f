(** Property C150: what the seed option and the printed seed reproduce. *)
From Verif Require Import Base StreamModel StreamSpec RbuLemmas SeedsModel SeedsSpec.
Open Scope N_scope.

Section Proofs.
Variables St Bf Re : Type.
Variable set : St -> N -> St.
Hypothesis F : forgets set.

Local Notation exec rnd := (execute_all St Bf Re set rnd).
Local Notation mk := (mkM St Bf).

Lemma exec_fixed rnd1 rnd2 st q (Q: q <> 0) ts : forall s b x c1 c2,
  exec rnd1 st q ts (mk s b x c1) = exec rnd2 st q ts (mk s b x c2).
Proof.
  induction ts as [|t ts IH]; intros s b x c1 c2; [reflexivity|].
  cbn [execute_all]. unfold execute_test, reseed.
  destruct (N.eqb_spec q 0); [contradiction|].
  destruct st; cbn [gen buf seed calls];
  destruct (t _ b) as (r & s' & b'); f_equal; apply IH.
Qed.

(** Without per-test reseeding the option and the source do not matter any
    more once the first seed is set. *)
Lemma exec_plain rnd1 rnd2 q1 q2 ts : forall s b x c1 c2,
  exec rnd1 false q1 ts (mk s b x c1) = exec rnd2 false q2 ts (mk s b x c2) /\
  forall q r, In (q, r) (exec rnd1 false q1 ts (mk s b x c1)) -> q = x.
Proof.
  induction ts as [|t ts IH]; intros s b x c1 c2; [split; [reflexivity|intros ? ? []]|].
  cbn [execute_all]. unfold execute_test. cbn [gen buf seed calls].
  destruct (t s b) as (r & s' & b').
  destruct (IH s' b' x c1 c2) as (E & I). split; [f_equal; exact E|].
  intros q r' [H|H]; [injection H; auto|eauto].
Qed.

Lemma exec_length rnd st q ts : forall m, length (exec rnd st q ts m) = length ts.
Proof.
  induction ts as [|t ts IH]; intro m; [reflexivity|].
  cbn [execute_all]. destruct (execute_test _ _ _ _ _ _ _ _ _). cbn [length]. f_equal. apply IH.
Qed.

(** With per-test reseeding and tidy tests each row is what the test gives on
    its seed and clean buffers. *)
Lemma exec_each clean rnd q0 ts : (forall t, In t ts -> tidy clean t) ->
  forall m i t row s b, clean (buf St Bf m) -> clean b ->
  nth_error ts i = Some t -> nth_error (exec rnd true q0 ts m) i = Some row ->
  row = (fst row, fst (t (set s (fst row)) b)) /\
  fst row = if q0 =? 0 then rnd (calls St Bf m + i)%nat else q0.
Proof.
  induction ts as [|t0 ts IH]; intros T m i t row s b Cm Cb Ht Hr; [destruct i; discriminate|].
  cbn [execute_all] in Hr. unfold execute_test in Hr.
  pose proof (T t0 (or_introl eq_refl)) as T0.
  remember (reseed St Bf set rnd q0 m) as m' eqn:M'.
  destruct (t0 (gen St Bf m') (buf St Bf m')) as (r & s' & b') eqn:E0.
  assert (B': buf St Bf m' = buf St Bf m) by (subst; unfold reseed; destruct (q0 =? 0); reflexivity).
  assert (G': gen St Bf m' = set s (seed St Bf m'))
    by (subst; unfold reseed; destruct (q0 =? 0); cbn; apply F).
  assert (K': calls St Bf m' = (calls St Bf m + if (q0 =? 0)%N then 1 else 0)%nat)
    by (subst; unfold reseed; destruct (q0 =? 0); cbn [calls]; lia).
  assert (S': seed St Bf m' = if q0 =? 0 then rnd (calls St Bf m) else q0)
    by (subst; unfold reseed; destruct (q0 =? 0); reflexivity).
  rewrite B', G' in E0.
  destruct (T0 (set s (seed St Bf m')) (buf St Bf m) b Cm Cb) as (R1 & _ & R3).
  rewrite E0 in R1, R3. cbn [fst snd] in R1, R3.
  destruct i as [|i]; cbn [nth_error] in Ht, Hr.
  - injection Ht as <-. injection Hr as <-. cbn [fst]. split; [rewrite <- R1; reflexivity|].
    rewrite S', Nat.add_0_r. reflexivity.
  - destruct (IH (fun t H => T t (or_intror H)) (mk s' b' (seed St Bf m') (calls St Bf m')) i t row s b) as (E & I); auto.
    split; [exact E|]. rewrite I. cbn [calls]. rewrite K'.
    destruct (q0 =? 0); [f_equal; lia|reflexivity].
Qed.
End Proofs.

(** With a seed that is not 0 modulo 2^32, the rows do not depend on the random
    source, on whether the generator was timed first, or on the state the
    generator was created in. *)
Theorem C150_reproducible : forall St Bf Re (set : St -> N -> St) timing1 timing2
    (rnd1 rnd2 : nat -> N) rate1 rate2 strategy z (ts : list (test St Bf Re)) s1 s2 b,
  forgets set -> (z mod 2 ^ 32 <> 0)%Z ->
  run St Bf Re set timing1 rnd1 rate1 strategy (Some z) ts s1 b =
  run St Bf Re set timing2 rnd2 rate2 strategy (Some z) ts s2 b.
Proof.
  intros St Bf Re set tm1 tm2 rnd1 rnd2 rate1 rate2 st z ts s1 s2 b F Z.
  unfold run. cbn [seed_option]. assert (Q: u32_of_Z z <> 0).
  { unfold u32_of_Z. pose proof (Z.mod_pos_bound z (2 ^ 32)). lia. }
  unfold choose_rng, reseed. destruct (N.eqb_spec (u32_of_Z z) 0); [contradiction|].
  destruct rate1, rate2; cbn [time_rng gen buf seed calls];
  rewrite (F _ s2); first [apply exec_fixed; exact Q | idtac];
  rewrite (F (tm2 _) s2); apply exec_fixed; exact Q.
Qed.

(** Without per-test reseeding every row shows the same seed, and a run started
    from a random seed is repeated, row by row, by giving -S that seed, unless
    it is 0. *)
Theorem C150_replay : forall St Bf Re (set : St -> N -> St) timing (rnd rnd' : nat -> N)
    rate rate' (ts : list (test St Bf Re)) s s' b q r,
  forgets set -> (forall i, rnd i < 2 ^ 32) ->
  In (q, r) (run St Bf Re set timing rnd rate false None ts s b) -> q <> 0 ->
  run St Bf Re set timing rnd' rate' false (Some (Z.of_N q)) ts s' b =
  run St Bf Re set timing rnd rate false None ts s b /\
  forall q' r', In (q', r') (run St Bf Re set timing rnd rate false None ts s b) -> q' = q.
Proof.
  intros St Bf Re set tm rnd rnd' rate rate' ts s s' b q r F B I Q.
  assert (A: exists s1 q1 c1, q1 < 2 ^ 32 /\ choose_rng St Bf set tm rnd rate 0 (mkM St Bf s b 0 0)
             = mkM St Bf (set s1 q1) b q1 c1).
  { unfold choose_rng, reseed. destruct rate; cbn; do 3 eexists; (split; [|reflexivity]); apply B. }
  destruct A as (s1 & q1 & c1 & B1 & A). unfold run in *. cbn [seed_option] in *. rewrite A in *.
  assert (q = q1) by (apply (proj2 (exec_plain St Bf Re set rnd rnd 0 0 ts _ _ _ _ c1) _ _ I)). subst q1.
  split; [|intros q' r' I'; apply (proj2 (exec_plain St Bf Re set rnd rnd 0 0 ts _ _ _ _ c1) _ _ I')].
  assert (U: u32_of_Z (Z.of_N q) = q).
  { unfold u32_of_Z. rewrite Z.mod_small by lia. apply N2Z.id. }
  rewrite U. unfold choose_rng, reseed. destruct (N.eqb_spec q 0); [contradiction|].
  destruct rate'; cbn [time_rng gen buf seed calls];
  rewrite (F _ s1); apply exec_plain.
Qed.

(** With per-test reseeding and tests that leave the buffers clean, each row is
    repeated by running its test alone with the seed shown, unless that is 0. *)
Theorem C150_row_alone : forall St Bf Re (clean : Bf -> Prop) (set : St -> N -> St) timing
    (rnd rnd' : nat -> N) rate rate' strategy' given (ts : list (test St Bf Re)) s s' b b' i t q r,
  forgets set -> (forall k, rnd k < 2 ^ 32) -> (forall t, In t ts -> tidy clean t) ->
  clean b -> clean b' ->
  nth_error ts i = Some t ->
  nth_error (run St Bf Re set timing rnd rate true given ts s b) i = Some (q, r) -> q <> 0 ->
  run St Bf Re set timing rnd' rate' strategy' (Some (Z.of_N q)) [t] s' b' = [(q, r)].
Proof.
  intros St Bf Re clean set tm rnd rnd' rate rate' st' given ts s s' b b' i t q r F B T Cb Cb' Ht Hr Q.
  unfold run in Hr.
  assert (BU: forall z, u32_of_Z z < 2 ^ 32).
  { intro z. unfold u32_of_Z. pose proof (Z.mod_pos_bound z (2 ^ 32)). lia. }
  assert (BS: seed_option given < 2 ^ 32) by (destruct given; [apply BU|reflexivity]).
  set (m := choose_rng _ _ _ _ _ _ _ _) in Hr.
  assert (Cm: clean (buf St Bf m)).
  { unfold m, choose_rng, reseed. destruct rate, (_ =? 0); exact Cb. }
  destruct (exec_each St Bf Re set F clean rnd (seed_option given) ts T m i t (q, r) s' b' Cm Cb' Ht Hr) as (E & I).
  cbn [fst] in E, I. assert (BQ: q < 2 ^ 32) by (rewrite I; destruct (_ =? 0); [apply B|exact BS]).
  assert (U: u32_of_Z (Z.of_N q) = q).
  { unfold u32_of_Z. rewrite Z.mod_small by lia. apply N2Z.id. }
  injection E as E. unfold run. cbn [seed_option]. rewrite U.
  cbn [execute_all]. unfold execute_test, choose_rng, reseed.
  destruct (N.eqb_spec q 0); [contradiction|].
  destruct st', rate'; cbn [time_rng gen buf seed calls];
  match goal with |- context [t (set ?a q) _] => replace (set a q) with (set s' q) by apply F end;
  rewrite E; destruct (t (set s' q) b') as (r0 & s0 & b0); reflexivity.
Qed.

(** The seeds shown with per-test reseeding: a new random number for each test,
    or -S for all of them; then equal tests give equal rows. *)
Theorem C150_row_seeds : forall St Bf Re (clean : Bf -> Prop) (set : St -> N -> St) timing
    (rnd : nat -> N) rate given (ts : list (test St Bf Re)) s b,
  forgets set -> (forall t, In t ts -> tidy clean t) -> clean b ->
  let rows := run St Bf Re set timing rnd rate true given ts s b in
  (forall i row, nth_error rows i = Some row -> seed_option given = 0 ->
     fst row = rnd ((if rate then 2 else 1) + i)%nat) /\
  (forall i j t row row', seed_option given <> 0 ->
     nth_error ts i = Some t -> nth_error ts j = Some t ->
     nth_error rows i = Some row -> nth_error rows j = Some row' ->
     row = row' /\ fst row = seed_option given).
Proof.
  intros St Bf Re clean set tm rnd rate given ts s b F T Cb. unfold run.
  set (m := choose_rng _ _ _ _ _ _ _ _).
  assert (Cm: clean (buf St Bf m)).
  { unfold m, choose_rng, reseed. destruct rate, (_ =? 0); exact Cb. }
  split.
  - intros i row Hr Z.
    assert (L: (i < length ts)%nat).
    { rewrite <- (exec_length St Bf Re set rnd true (seed_option given) ts m).
      apply nth_error_Some. rewrite Hr. discriminate. }
    destruct (nth_error ts i) as [t|] eqn:Ht; [|apply nth_error_None in Ht; lia].
    destruct (exec_each St Bf Re set F clean rnd _ ts T m i t row s b Cm Cb Ht Hr) as (_ & I).
    rewrite I, Z. cbn [N.eqb]. unfold m, choose_rng, reseed. rewrite Z.
    destruct rate; reflexivity.
  - intros i j t row row' Q Hi Hj Ri Rj.
    destruct (exec_each St Bf Re set F clean rnd _ ts T m i t row s b Cm Cb Hi Ri) as (E & I).
    destruct (exec_each St Bf Re set F clean rnd _ ts T m j t row' s b Cm Cb Hj Rj) as (E' & I').
    destruct (N.eqb_spec (seed_option given) 0); [contradiction|].
    split; [|exact I]. rewrite E, E', I, I'. reflexivity.
Qed.

(** Tests that ask for whole words of the generator never use the buffer: they
    are tidy. *)
Theorem C150_whole_words_tidy : forall g w k, 1 <= w -> w <= 32 ->
  tidy (fun b => snd b = 0) (piece_test g w w k).
Proof.
  intros g w k W1 W2 s b b' Cb Cb'. unfold piece_test.
  assert (A: forall k p, run_rbu (g (fst s)) w (repeat w k) (mkR (fst b) 0 p)
      = Ok (map (fun i => g (fst s) (p + N.of_nat i)) (seq 0 k), mkR (fst b) 0 (p + N.of_nat k)) /\
      run_rbu (g (fst s)) w (repeat w k) (mkR (fst b') 0 p)
      = Ok (map (fun i => g (fst s) (p + N.of_nat i)) (seq 0 k), mkR (fst b') 0 (p + N.of_nat k))).
  { assert (M: N.ones w =? 0 = false).
    { apply N.eqb_neq. rewrite N.ones_equiv.
      assert (2 ^ 1 <= 2 ^ w) by (apply N.pow_le_mono_r; lia). change (2 ^ 1) with 2 in *. lia. }
    assert (ST: forall b p, get_rand_bits_uint (g (fst s)) w w (N.ones w) (mkR b 0 p)
              = Ok (g (fst s) p, mkR b 0 (p + 1))).
    { intros b0 p. unfold get_rand_bits_uint. rewrite M. cbn [bind].
      replace (32 <? w) with false by lia. rewrite N.eqb_refl. reflexivity. }
    clear - ST. induction k as [|k IH]; intro p.
    - cbn. rewrite N.add_0_r. split; reflexivity.
    - cbn [repeat run_rbu]. rewrite !ST. cbn [bind]. destruct (IH (p + 1)) as (E & E').
      rewrite E, E'. cbn [bind seq map].
      replace (p + 1 + N.of_nat k) with (p + N.of_nat (S k)) by lia.
      rewrite N.add_0_r.
      assert (X: map (fun i => g (fst s) (p + 1 + N.of_nat i)) (seq 0 k)
               = map (fun i => g (fst s) (p + N.of_nat i)) (seq 1 k)).
      { rewrite <- seq_shift, map_map. apply map_ext. intro i. f_equal. lia. }
      rewrite X. split; reflexivity. }
  destruct (A k (snd s)) as (E & E'). rewrite Cb, Cb', E, E'. repeat split.
Qed.

(** What a test of [k] pieces of [n] bits leaves in an empty buffer: the rest of
    the last generator word. *)
Lemma run_rbu_inv g w (W1: 1 <= w) (W2: w <= 32) (G: forall i, g i < 2 ^ w) n (N1: n <= 32) (N2: n <> w) k :
  forall P s, rinv g w P s -> exists s',
    run_rbu g w (repeat n k) s
      = Ok (pieces (fun p n => window_value (stream_msb g w) p (N.to_nat n)) P (repeat n k), s') /\
    rinv g w (P + n * N.of_nat k) s'.
Proof.
  induction k as [|k IH]; intros P s H.
  - exists s. split; [reflexivity|]. replace (P + n * N.of_nat 0) with P by lia. exact H.
  - cbn [repeat run_rbu pieces].
    destruct (get_rand_bits_uint_step g w W1 W2 G P n s N1 N2 H) as (s1 & E1 & H1).
    rewrite E1. cbn [bind]. destruct (IH _ _ H1) as (s2 & E2 & H2). rewrite E2. cbn [bind].
    exists s2. split; [reflexivity|].
    replace (P + n * N.of_nat (S k)) with (P + n + n * N.of_nat k) by lia. exact H2.
Qed.

Lemma rinv_empty g w b p : 1 <= w -> rinv g w (w * p) (mkR b 0 p).
Proof. intro W. unfold rinv. cbn [bits_left rpos bit_buffer]. repeat split; lia. Qed.

Theorem C150_left_over : forall g w n k q p b,
  1 <= w -> w <= 32 -> (forall q i, g q i < 2 ^ w) -> n <= 32 -> n <> w ->
  exists vs p' b', piece_test g w n k (q, p) (b, 0) = (Ok vs, ((q, p'), (b', (w - (n * N.of_nat k) mod w) mod w))).
Proof.
  intros g w n k q p b W1 W2 G N1 N2. unfold piece_test. cbn [fst snd].
  destruct (run_rbu_inv (g q) w W1 W2 (G q) n N1 N2 k _ _ (rinv_empty (g q) w b p W1)) as (s' & E & I).
  rewrite E. do 3 eexists. f_equal. f_equal. f_equal.
  destruct I as (I1 & I2 & _). set (t := n * N.of_nat k) in *.
  pose proof (N.div_mod t w ltac:(lia)) as D. pose proof (N.mod_lt t w ltac:(lia)) as L.
  set (r := t mod w) in *. set (d := t / w) in *. clearbody r d t.
  assert (M: w * rpos s' = w * (p + d) + (r + bits_left s')) by lia.
  clear I2 D. assert (LE: p + d <= rpos s') by nia.
  assert (EX: exists e, rpos s' = p + d + e) by (exists (rpos s' - (p + d)); lia).
  destruct EX as (e & X). rewrite X in M.
  assert (ME: w * e = r + bits_left s') by lia. clear M LE X.
  destruct (N.eq_dec r 0) as [->|R].
  - rewrite N.sub_0_r, N.mod_same by lia.
    assert (e = 0) by nia. subst e. lia.
  - rewrite N.mod_small by lia.
    assert (e = 1) by nia. subst e. lia.
Qed.

(** So a test whose pieces fill whole words is tidy. *)
Theorem C150_pieces_tidy : forall g w n k,
  1 <= w -> w <= 32 -> (forall q i, g q i < 2 ^ w) -> n <= 32 -> (n * N.of_nat k) mod w = 0 ->
  tidy (fun b => snd b = 0) (piece_test g w n k).
Proof.
  intros g w n k W1 W2 G N1 T. destruct (N.eq_dec n w) as [->|N2]; [apply C150_whole_words_tidy; assumption|].
  intros (q, p) (b, l) (b', l') Cb Cb'. cbn [snd] in Cb, Cb'. subst l l'.
  destruct (C150_left_over g w n k q p b W1 W2 G N1 N2) as (vs & p1 & b1 & E).
  rewrite E. cbn [fst snd].
  assert (X: fst (piece_test g w n k (q, p) (b', 0)) = Ok vs /\
             fst (snd (piece_test g w n k (q, p) (b', 0))) = (q, p1)).
  { revert E. unfold piece_test. cbn [fst snd].
    destruct (run_rbu_inv (g q) w W1 W2 (G q) n N1 N2 k _ _ (rinv_empty (g q) w b p W1)) as (s1 & E1 & I1).
    destruct (run_rbu_inv (g q) w W1 W2 (G q) n N1 N2 k _ _ (rinv_empty (g q) w b' p W1)) as (s2 & E2 & I2).
    rewrite E1, E2. cbn [fst snd]. intro H. inversion H. split; [reflexivity|]. f_equal.
    destruct I1 as (A1 & A2 & _), I2 as (B1 & B2 & _). nia. }
  destruct X as (-> & ->). repeat split. rewrite T, N.sub_0_r. apply N.mod_same. lia.
Qed.

(** The seed shown does not repeat the row when pieces are left over: with a
    31-bit generator and one 32-bit piece per test, the second row of
    "-s 1 -S 5" is not what the same test gives alone with that seed. *)
Definition toy (q i : N) := (q * 1000 + i * 77777) mod 2 ^ 31.
Definition toy_set (s : N * N) (q : N) : N * N := (q, 0).
Definition toy_run (rnd : nat -> N) strategy given (ts : list (N * nat)) :=
  run (N * N) (N * N) (outcome (list N)) toy_set (fun s => s) rnd false strategy given
    (map (fun t => piece_test toy 31 (fst t) (snd t)) ts) (0, 0) (0, 0).

Theorem C150_leftover_refuted : exists t q r r',
  nth_error (toy_run (fun _ => 1) true (Some 5%Z) [t; t]) 0 = Some (q, r) /\
  nth_error (toy_run (fun _ => 1) true (Some 5%Z) [t; t]) 1 = Some (q, r') /\
  q = 5 /\ r <> r' /\ (exists v, r' = Ok v) /\
  toy_run (fun _ => 1) true (Some (Z.of_N q)) [t] = [(q, r)].
Proof.
  exists (32, 1%nat), 5. eexists. eexists. split; [vm_compute; reflexivity|].
  split; [vm_compute; reflexivity|]. split; [reflexivity|]. split; [discriminate|].
  split; [eexists; reflexivity|]. vm_compute. reflexivity.
Qed.

(** Without per-test reseeding a later row is not repeated by running its test
    alone with the seed shown beside it, even for tidy tests. *)
Theorem C150_later_row_refuted : exists t q r r',
  toy_run (fun _ => 7) false None [t; t] = [(q, r); (q, r')] /\
  toy_run (fun _ => 9) false (Some (Z.of_N q)) [t] = [(q, r)] /\ q <> 0 /\ r <> r' /\
  tidy (fun b => snd b = 0) (piece_test toy 31 (fst t) (snd t)).
Proof.
  exists (31, 1%nat), 7. eexists. eexists. split; [vm_compute; reflexivity|].
  split; [vm_compute; reflexivity|]. split; [discriminate|]. split; [discriminate|].
  apply C150_whole_words_tidy; discriminate.
Qed.

(** A given seed that is a multiple of 2^32 (0 included) is not used: the rows
    depend on the random source. *)
Theorem C150_big_seed_refuted : exists z rnd rnd' t,
  (z <> 0)%Z /\ toy_run rnd false (Some z) [t] <> toy_run rnd' false (Some z) [t].
Proof.
  exists 4294967296%Z, (fun _ => 3), (fun _ => 4), (31, 1%nat). split; [discriminate|].
  vm_compute. discriminate.
Qed.
Theorem C150_multiples : forall St Bf Re (set : St -> N -> St) timing (rnd : nat -> N) rate strategy z
    (ts : list (test St Bf Re)) s b, (z mod 2 ^ 32 = 0)%Z ->
  run St Bf Re set timing rnd rate strategy (Some z) ts s b =
  run St Bf Re set timing rnd rate strategy None ts s b.
Proof.
  intros. unfold run. cbn [seed_option]. unfold u32_of_Z. rewrite H. reflexivity.
Qed.

(** A run whose random seed came out as 0 shows seed 0 and cannot be repeated
    with -S 0. *)
Theorem C150_zero_refuted : exists rnd rnd' t r,
  toy_run rnd false None [t] = [(0, r)] /\ toy_run rnd' false (Some 0%Z) [t] <> [(0, r)].
Proof.
  exists (fun _ => 0), (fun _ => 4), (31, 1%nat). eexists.
  split; [vm_compute; reflexivity|]. vm_compute. discriminate.
Qed.

(** The hypotheses are met: a forgetting generator, two tidy tests, a seed. *)
Example C150_ex :
  forgets toy_set /\
  toy_run (fun i => 40 + N.of_nat i) true None [(31, 2%nat); (31, 1%nat)]
    = [(41, Ok [41000; 118777]); (42, Ok [42000])] /\
  toy_run (fun i => 99) false (Some 42%Z) [(31, 1%nat)] = [(42, Ok [42000])] /\
  toy_run (fun i => 99) true (Some (-1)%Z) [(31, 1%nat)] = [(4294967295, Ok [2147482648])] /\
  (* 31 pieces of 32 bits from a 31-bit generator leave nothing over, one leaves 30 bits *)
  snd (snd (snd (piece_test toy 31 32 31 (5, 0) (0, 0)))) = 0 /\
  snd (snd (snd (piece_test toy 31 32 1 (5, 0) (0, 0)))) = 30.
Proof. split; [intros s s' x; reflexivity|]. repeat split; vm_compute; reflexivity. Qed.

Print Assumptions C150_reproducible.
Print Assumptions C150_replay.
Print Assumptions C150_row_alone.
Print Assumptions C150_row_seeds.
Print Assumptions C150_whole_words_tidy.
Print Assumptions C150_left_over.
Print Assumptions C150_pieces_tidy.
Print Assumptions C150_leftover_refuted.
Print Assumptions C150_later_row_refuted.
Print Assumptions C150_big_seed_refuted.
Print Assumptions C150_multiples.
Print Assumptions C150_zero_refuted.
