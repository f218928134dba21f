(** Properties C29, C30, C81 and C83-C87 for the generators from GNU R. *)
From Coq Require Import Reals.
From Verif Require Import RSpec RLemmas RLemmas2 RDoubles RDoubles2 GensLemmas LinearLemmas DoubleLemmas DoubleLemmas2 PropCipherGens.
From Flocq Require Import IEEE754.BinarySingleNaN.
Open Scope N_scope.

Definition state_good (k : rkind) (st : list N) : Prop := exists l rest, st = l ++ rest /\ r_good k l.
Lemma set_state k dv s : exists st, r_set k dv s = Ok st /\ state_good k st.
Proof. destruct (set_good k dv s) as (l & E & _ & G). eexists. split; [exact E|]. exists l, (skipn (n_seed k) dv). auto. Qed.
Lemma get_state k st : state_good k st -> exists v st', r_get k st = Ok (v, st') /\ v <= r_max k - 1 /\ state_good k st'.
Proof.
  intros (l & rest & -> & G). destruct (get_good k l rest G) as (j & l' & E & J & G'). exists j, (l' ++ rest).
  split; [exact E|]. split; [|exists l', rest; auto]. generalize dependent (r_max k). intros. lia.
Qed.

(** C29: every history of seedings and draws runs without failure and never
    returns the declared maximum. *)
Theorem C29_R : forall k dv s, exists st, r_set k dv s = Ok st /\
  stays_within (r_set k) (r_get k) (r_max k - 1) st /\ never_fails (r_set k) (r_get k) st.
Proof.
  intros k dv s. destruct (set_state k dv s) as (st & E & G). exists st. split; [exact E|].
  apply (within_if (r_set k) (r_get k) (state_good k)); [intros a b; apply set_state|apply get_state|exact G].
Qed.

(** C81: and the numbers are strictly between zero and one. *)
Theorem C81_R : forall k dv s n, exists st us st', r_set k dv s = Ok st /\ times (r_get_double k) n st = Ok (us, st') /\
  Forall (fun u => dlt dzero u = true /\ dlt u DoubleModel.done = true) us.
Proof.
  intros k dv s n. destruct (set_state k dv s) as (st & E & G). exists st.
  enough (H : forall n st, state_good k st -> exists us st', times (r_get_double k) n st = Ok (us, st') /\
    Forall (fun u => dlt dzero u = true /\ dlt u DoubleModel.done = true) us).
  { destruct (H n st G) as (us & st' & T & F). exists us, st'. auto. }
  clear. induction n as [|n IH]; intros st G; [exists [], st; auto|].
  destruct G as (l & rest & -> & G). destruct (double_good k l rest G) as (u & w & l' & E & _ & _ & F & B & G').
  cbn [times]. rewrite E. cbn [bind]. destruct (IH (l' ++ rest)) as (us & st' & T & A); [exists l', rest; auto|].
  rewrite T. cbn [bind]. exists (u :: us), st'. split; [reflexivity|]. constructor; [|exact A].
  rewrite !dlt_val by (first [reflexivity|apply finite_nan, F]). rewrite val_zero, val_one, val_finite by exact F. exact B.
Qed.

(** C30: the numbers after seeding are determined by the seed, whatever the
    static array held before: that is, after any history of this and the five
    other generators. *)
Lemma draws_slice k n : forall l r1 r2, r_good k l -> exists vs l', draws (r_get k) n (l ++ r1) = Ok (vs, l' ++ r1) /\
  draws (r_get k) n (l ++ r2) = Ok (vs, l' ++ r2) /\ r_good k l'.
Proof.
  induction n as [|n IH]; intros l r1 r2 G; [exists [], l; auto|]. cbn [draws].
  assert (E : exists j l', r_get k (l ++ r1) = Ok (j, l' ++ r1) /\ r_get k (l ++ r2) = Ok (j, l' ++ r2) /\ r_good k l').
  { destruct (get_good k l r1 G) as (j & l' & E & _ & G'). exists j, l'. split; [exact E|]. split; [|exact G'].
    revert E. unfold r_get. destruct (double_good k l r1 G) as (u & w & l1 & -> & W & U & _). destruct (double_good k l r2 G) as (u' & w' & l2 & -> & W' & U' & _).
    cbn [bind]. assert (w' = w) by congruence. assert (l2 = l1) by congruence. subst w' l2. assert (u' = u) by congruence. subst u'.
    destruct (to_ulong (r_scale k u)); cbn [bind]; intro E; try discriminate.
    assert (a = j) by congruence. subst a. assert (E' : l1 ++ r1 = l' ++ r1) by congruence. apply app_inv_tail in E'. subst l'. reflexivity. }
  destruct E as (j & l' & -> & -> & G'). cbn [bind]. destruct (IH l' r1 r2 G') as (vs & l2 & -> & -> & G2). cbn [bind].
  exists (j :: vs), l2. auto.
Qed.
Theorem C30_R_any : forall k dv1 dv2 s n, exists st1 st2 vs st1' st2',
  r_set k dv1 s = Ok st1 /\ r_set k dv2 s = Ok st2 /\
  draws (r_get k) n st1 = Ok (vs, st1') /\ draws (r_get k) n st2 = Ok (vs, st2').
Proof.
  intros k dv1 dv2 s n. destruct (set_good k dv1 s) as (l & E1 & I1 & G). destruct (set_good k dv2 s) as (l2 & E2 & I2 & _).
  assert (l2 = l) by congruence. subst l2. destruct (draws_slice k n l (skipn (n_seed k) dv1) (skipn (n_seed k) dv2) G) as (vs & l' & D1 & D2 & _).
  do 5 eexists. repeat split; eassumption.
Qed.
Theorem C30_R : forall k, reproducible (r_set k) (r_get k).
Proof.
  intros k st1 st2 h1 h2 s n [o1 r1] [o2 r2] E1 E2. unfold after. rewrite E1, E2. cbn [bind run].
  destruct (C30_R_any k r1 r2 s n) as (t1 & t2 & vs & t1' & t2' & -> & -> & D1 & D2). cbn [bind].
  rewrite !run_draws, D1, D2. reflexivity.
Qed.
(** ** C83: the Mersenne twister *)
(** The generator that fills the state from the seed. *)
Definition congruential (v : N) : N := (69069 * v + 1) mod 2 ^ 32.
Lemma scramble_congruential v : scramble v = congruential v.
Proof. unfold scramble, congruential, add32, mul32, w32. apply N.add_mod_idemp_l. discriminate. Qed.
Lemma iter_scramble n v : N.iter n scramble v = N.iter n congruential v.
Proof.
  induction n as [|n IH] using N.peano_ind; [reflexivity|]. rewrite !N.iter_succ, IH. apply scramble_congruential.
Qed.
Lemma mt_get x n l rest : mt19937 x -> (forall i, x i < 2 ^ 32) -> mt_good x n l ->
  exists u l', r_get_double MERSENNE_TWISTER (l ++ rest) = Ok (u, l' ++ rest) /\ is_finite u = true /\
    (temper (x (n + 624)%nat) <> 0%N -> B2R u = IZR (Z.of_N (temper (x (n + 624)%nat))) / 4294967296)%R /\
    r_get MERSENNE_TWISTER (l ++ rest) = Ok (N.pred (temper (x (n + 624)%nat)), l' ++ rest) /\ mt_good x (S n) l'.
Proof.
  intros X B G. assert (RG : r_good MERSENNE_TWISTER l) by (exists x, n; auto).
  destruct (double_good MERSENNE_TWISTER l rest RG) as (u & w & l' & E & W & U & F & _).
  cbn [r_words] in W. destruct (mt_genrand_ok x X B n l G) as (l2 & E2 & G2). rewrite E2 in W. cbn [bind] in W.
  rewrite temper_spec in W. set (y := temper (x (n + 624)%nat)) in *. assert (w = [y]) by congruence. assert (l2 = l') by congruence. subst w l2.
  destruct (mt_unif y) as (u' & U' & F' & V & T); [apply temper_lt, B|]. assert (u' = u) by congruence. subst u'.
  exists u, l'. split; [exact E|]. split; [exact F|]. split; [exact V|]. split; [|exact G2].
  unfold r_get. rewrite E. cbn [bind]. rewrite T. reflexivity.
Qed.
(** After seeding, the words are the Mersenne twister sequence whose first 624
    words are values of a congruential generator started from the seed; the
    integers are the tempered words less one, and the doubles the tempered words
    over 2^32. *)
Theorem C83_twister : forall dv seed, exists x, mt19937 x /\ (forall i, x i < 2 ^ 32) /\
  (forall i, (i < 624)%nat -> x i = N.iter (N.of_nat i + 52) congruential (seed mod 2 ^ 32)) /\
  forall n, exists st st1 st2 us, r_set MERSENNE_TWISTER dv seed = Ok st /\
    draws (r_get MERSENNE_TWISTER) n st = Ok (map (fun i => N.pred (temper (x (i + 624)%nat))) (seq 0 n), st1) /\
    times (r_get_double MERSENNE_TWISTER) n st = Ok (us, st2) /\
    Forall2 (fun i u => is_finite u = true /\
      (temper (x (i + 624)%nat) <> 0%N -> B2R u = IZR (Z.of_N (temper (x (i + 624)%nat))) / 4294967296)%R) (seq 0 n) us.
Proof.
  intros dv seed. destruct (init_mt_good (w32 seed)) as (x & X & B & I & G). exists x. split; [exact X|]. split; [exact B|].
  split; [intros i Hi; rewrite I by exact Hi; apply iter_scramble|]. intro n.
  exists ((624 :: mt_words (w32 seed)) ++ skipn 625 dv).
  assert (S0 : r_set MERSENNE_TWISTER dv seed = Ok ((624 :: mt_words (w32 seed)) ++ skipn 625 dv)).
  { unfold r_set. rewrite init_mt. reflexivity. }
  generalize dependent (624 :: mt_words (w32 seed)). intros l G S0. generalize dependent (skipn 625 dv). intros rest S0. 
  enough (H : forall n b l, mt_good x b l -> exists l1 l2 us,
    draws (r_get MERSENNE_TWISTER) n (l ++ rest) = Ok (map (fun i => N.pred (temper (x (i + 624)%nat))) (seq b n), l1 ++ rest) /\
    times (r_get_double MERSENNE_TWISTER) n (l ++ rest) = Ok (us, l2 ++ rest) /\
    Forall2 (fun i u => is_finite u = true /\
      (temper (x (i + 624)%nat) <> 0%N -> B2R u = IZR (Z.of_N (temper (x (i + 624)%nat))) / 4294967296)%R) (seq b n) us).
  { destruct (H n 0%nat l G) as (l1 & l2 & us & D & T & F). exists (l1 ++ rest), (l2 ++ rest), us. auto. }
  clear l G S0 n. induction n as [|n IH]; intros b l G; [exists l, l, []; repeat split; constructor|].
  destruct (mt_get x b l rest X B G) as (u & l' & E & F & V & E' & G'). destruct (IH (S b) l' G') as (l1 & l2 & us & D & T & FF).
  exists l1, l2, (u :: us). cbn [draws times seq map]. rewrite E, E'. cbn [bind]. rewrite D, T. cbn [bind].
  split; [reflexivity|]. split; [reflexivity|]. constructor; auto.
Qed.
Example C83_ex : (do st <- r_set MERSENNE_TWISTER [] 1 ;; do (vs, st) <- draws (r_get MERSENNE_TWISTER) 1 st ;; Ok vs) =
  Ok [1140351024].
Proof. vm_compute. reflexivity. Qed.
(** ** C84: R_knuth_taocp and R_knuth_taocp2 *)
Lemma kt_get x n l rest : lagged x -> (forall i, x i < 2 ^ 30) -> kt_good x n l ->
  exists u l', r_get_double KNUTH_TAOCP (l ++ rest) = Ok (u, l' ++ rest) /\ (forall rest2, r_get_double KNUTH_TAOCP2 (l ++ rest2) = Ok (u, l' ++ rest2)) /\
    let v := N.pred (x (1009 * (n / 100 + 1) + n mod 100)%nat) in
    r_get KNUTH_TAOCP (l ++ rest) = Ok (v, l' ++ rest) /\ (forall rest2, r_get KNUTH_TAOCP2 (l ++ rest2) = Ok (v, l' ++ rest2)) /\ kt_good x (S n) l'.
Proof.
  intros X B G. assert (RG : r_good KNUTH_TAOCP l) by (exists x, n; auto).
  destruct (double_good KNUTH_TAOCP l rest RG) as (u & w & l' & E & W & U & F & _).
  cbn [r_words] in W. destruct (kt_next_ok x X B n l G) as (l2 & E2 & G2). rewrite E2 in W. cbn [bind] in W.
  set (y := x (1009 * (n / 100 + 1) + n mod 100)%nat) in *. assert (w = [y]) by congruence. assert (l2 = l') by congruence. subst w l2.
  destruct (kt_unif y) as (u' & U1 & U2 & F' & T1 & T2); [apply B|]. assert (u' = u) by congruence. subst u'.
  assert (E3 : forall rest2, r_get_double KNUTH_TAOCP2 (l ++ rest2) = Ok (u, l' ++ rest2)).
  { intro rest2. unfold r_get_double. destruct (firstn_slice KNUTH_TAOCP2 l rest2 (good_length KNUTH_TAOCP2 l RG)) as [-> ->].
    cbn [r_words]. rewrite E2. cbn [bind]. rewrite U2. reflexivity. }
  exists u, l'. split; [exact E|]. split; [exact E3|]. cbv zeta. split; [|split; [|exact G2]].
  - unfold r_get. rewrite E. cbn [bind]. rewrite T1. reflexivity.
  - intro rest2. unfold r_get. rewrite E3. cbn [bind]. rewrite T2. reflexivity.
Qed.
(** For every seed both return the same integers and the same doubles: those of
    one lagged sequence, of which every 1009 words the first hundred are used. *)
Theorem C84_same_refuted : forall dv1 dv2 seed, exists x, lagged x /\ (forall i, x i < 2 ^ 30) /\
  forall n, exists st1 st2 s1 s2 s3 s4 us, r_set KNUTH_TAOCP dv1 seed = Ok st1 /\ r_set KNUTH_TAOCP2 dv2 seed = Ok st2 /\
    let vs := map (fun i => N.pred (x (1009 * (i / 100 + 1) + i mod 100)%nat)) (seq 0 n) in
    draws (r_get KNUTH_TAOCP) n st1 = Ok (vs, s1) /\ draws (r_get KNUTH_TAOCP2) n st2 = Ok (vs, s2) /\
    times (r_get_double KNUTH_TAOCP) n st1 = Ok (us, s3) /\ times (r_get_double KNUTH_TAOCP2) n st2 = Ok (us, s4).
Proof.
  intros dv1 dv2 seed. destruct (init_kt_good (N.iter 50 scramble (w32 seed))) as (x & rx & E & X & B & G). exists x.
  split; [exact X|]. split; [exact B|]. intro n. exists ((rx ++ [100]) ++ skipn 101 dv1), ((rx ++ [100]) ++ skipn 101 dv2).
  assert (S1 : r_set KNUTH_TAOCP dv1 seed = Ok ((rx ++ [100]) ++ skipn 101 dv1)) by (unfold r_set; cbn [rng_init]; rewrite E; reflexivity).
  assert (S2 : r_set KNUTH_TAOCP2 dv2 seed = Ok ((rx ++ [100]) ++ skipn 101 dv2)) by (unfold r_set; cbn [rng_init]; rewrite E; reflexivity).
  rewrite S1, S2. clear S1 S2 E. generalize dependent (rx ++ [100]). intros l G. clear rx.
  generalize (skipn 101 dv1). intro r1. generalize (skipn 101 dv2). intro r2. cbv zeta.
  enough (H : forall n b l, kt_good x b l -> exists l1 l2 us,
    let vs := map (fun i => N.pred (x (1009 * (i / 100 + 1) + i mod 100)%nat)) (seq b n) in
    draws (r_get KNUTH_TAOCP) n (l ++ r1) = Ok (vs, l1 ++ r1) /\ draws (r_get KNUTH_TAOCP2) n (l ++ r2) = Ok (vs, l1 ++ r2) /\
    times (r_get_double KNUTH_TAOCP) n (l ++ r1) = Ok (us, l2 ++ r1) /\ times (r_get_double KNUTH_TAOCP2) n (l ++ r2) = Ok (us, l2 ++ r2)).
  { destruct (H n 0%nat l G) as (l1 & l2 & us & D1 & D2 & T1 & T2). do 5 eexists. repeat (split; [first [reflexivity|eassumption]|]). exact T2. }
  clear l G n. induction n as [|n IH]; intros b l G; [exists l, l, []; repeat split; constructor|].
  destruct (kt_get x b l r1 X B G) as (u & l' & E1 & E2 & V1 & V2 & G'). destruct (IH (S b) l' G') as (l1 & l2 & us & D1 & D2 & T1 & T2).
  exists l1, l2, (u :: us). cbv zeta. cbn [draws times seq map]. rewrite E1, E2, V1, V2. cbn [bind]. rewrite D1, D2, T1, T2. cbn [bind]. auto.
Qed.
Example C84_ex : (do st <- r_set KNUTH_TAOCP2 [] 1 ;; do (vs, st) <- draws (r_get KNUTH_TAOCP2) 1 st ;; Ok vs) = Ok [504833753].
Proof. vm_compute. reflexivity. Qed.
Print Assumptions C29_R.
Print Assumptions C30_R.
Print Assumptions C81_R.
Print Assumptions C83_twister.
Print Assumptions C84_same_refuted.
