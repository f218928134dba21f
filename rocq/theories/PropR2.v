(** Properties C85-C87 for the generators from GNU R. *)
From Verif Require Import RSpec RLemmas RLemmas2 RDoubles RDoubles2 GensLemmas LinearLemmas PropR.
Open Scope N_scope.

(** ** C85: R_marsaglia_multicarry *)
Definition half_step (a v : N) : N := a * (v mod 65536) + v / 65536.
Lemma half_step_ok a v : v < 2 ^ 32 -> a <= 65535 ->
  add32 (mul32 a (N.land v 65535)) (N.shiftr v 16) = half_step a v /\ half_step a v < 2 ^ 32.
Proof.
  intros V A. change 65535 with (N.ones 16) at 1. rewrite N.land_ones, N.shiftr_div_pow2. change (2 ^ 16) with 65536.
  pose proof (N.mod_lt v 65536 ltac:(lia)) as L. assert (H : v / 65536 < 65536) by (apply N.div_lt_upper_bound; [lia|exact V]).
  unfold half_step, add32, mul32. change (2 ^ 32) with 4294967296 in *.
  generalize dependent (v mod 65536). generalize dependent (v / 65536). intros h H l L. clear V.
  assert (a * l <= 65535 * 65535) by (apply N.mul_le_mono; lia).
  rewrite (w32_small (a * l)) by (change (2 ^ 32) with 4294967296; lia). rewrite w32_small by (change (2 ^ 32) with 4294967296; lia). split; [reflexivity|lia].
Qed.
Definition mc_word (a b : N) : N := N.lxor (w32 (N.shiftl a 16)) (N.land b 65535).
Lemma mc_words a b : a < 2 ^ 32 -> b < 2 ^ 32 ->
  r_words MARSAGLIA_MULTICARRY [a; b] = Ok ([mc_word (half_step 36969 a) (half_step 18000 b)], [half_step 36969 a; half_step 18000 b]).
Proof.
  intros A B. cbn [r_words]. destruct (two_words a b) as [-> ->]. cbn [bind].
  destruct (half_step_ok 36969 a A) as [-> _]; [lia|]. destruct (half_step_ok 18000 b B) as [-> _]; [lia|]. reflexivity.
Qed.
Lemma mc_word_val a b : mc_word a b = 65536 * (a mod 65536) + b mod 65536.
Proof.
  unfold mc_word. change 65535 with (N.ones 16). rewrite N.land_ones.
  replace (w32 (N.shiftl a 16)) with (N.shiftl (a mod 65536) 16).
  - rewrite N.mul_comm. change 65536 with (2 ^ 16). rewrite <- N.shiftl_mul_pow2.
    symmetry. rewrite N.add_nocarry_lxor; [reflexivity|]. apply N.bits_inj. intro i. rewrite N.land_spec, N.bits_0.
    destruct (N.lt_ge_cases i 16) as [L|L]; [rewrite N.shiftl_spec_low by exact L; reflexivity|].
    rewrite N.mod_pow2_bits_high by exact L. apply andb_false_r.
  - unfold w32. rewrite !N.shiftl_mul_pow2. change (2 ^ 32) with (2 ^ 16 * 2 ^ 16). rewrite N.mul_mod_distr_r by discriminate. reflexivity.
Qed.
Lemma mc_get a b rest : a < 2 ^ 32 -> b < 2 ^ 32 ->
  exists j, r_get MARSAGLIA_MULTICARRY ([a; b] ++ rest) = Ok (j, [half_step 36969 a; half_step 18000 b] ++ rest) /\
    let y := 65536 * (half_step 36969 a mod 65536) + half_step 18000 b mod 65536 in N.pred y <= j <= y.
Proof.
  intros A B. unfold r_get, r_get_double. change (firstn (n_seed MARSAGLIA_MULTICARRY) ([a; b] ++ rest)) with [a; b].
  change (skipn (n_seed MARSAGLIA_MULTICARRY) ([a; b] ++ rest)) with rest. rewrite mc_words by assumption. cbn [bind].
  rewrite mc_word_val. cbv zeta. set (y := 65536 * _ + _).
  destruct (c_unif MARSAGLIA_MULTICARRY y (or_introl eq_refl)) as (u & j & E & T & J).
  { unfold y. pose proof (N.mod_lt (half_step 36969 a) 65536 ltac:(lia)). pose proof (N.mod_lt (half_step 18000 b) 65536 ltac:(lia)).
    change (2 ^ 32) with 4294967296. lia. }
  rewrite E. cbn [bind]. rewrite T. cbn [bind]. exists j. auto.
Qed.
Lemma mc_set dv s : let w := fun k => let v := N.iter k congruential (s mod 2 ^ 32) in if v =? 0 then 1 else v in
  r_set MARSAGLIA_MULTICARRY dv s = Ok ([w 51; w 52] ++ skipn 2 dv).
Proof.
  cbv beta zeta. rewrite <- !iter_scramble. change (s mod 2 ^ 32) with (w32 s). unfold r_set. generalize (w32 s). intro t.
  change 52 with (N.succ (N.succ 50)). change 51 with (N.succ 50). rewrite !N.iter_succ. cbn [rng_init n_seed]. generalize (N.iter 50 scramble t). intro v. reflexivity.
Qed.
(** The two words after [n] draws. *)
Lemma mc_draws n : forall a b rest, a < 2 ^ 32 -> b < 2 ^ 32 -> exists vs,
  draws (r_get MARSAGLIA_MULTICARRY) n ([a; b] ++ rest) =
    Ok (vs, [N.iter (N.of_nat n) (half_step 36969) a; N.iter (N.of_nat n) (half_step 18000) b] ++ rest) /\
  length vs = n /\ forall i, (i < n)%nat ->
    let y := 65536 * (N.iter (N.of_nat (S i)) (half_step 36969) a mod 65536) + N.iter (N.of_nat (S i)) (half_step 18000) b mod 65536 in
    N.pred y <= nth i vs 0 <= y.
Proof.
  induction n as [|n IH]; intros a b rest A B; [exists []; split; [reflexivity|]; split; [reflexivity|intros; lia]|].
  cbn [draws]. destruct (mc_get a b rest A B) as (j & -> & J). cbn [bind].
  destruct (IH (half_step 36969 a) (half_step 18000 b) rest) as (vs & -> & L & V).
  { apply half_step_ok; [exact A|lia]. } { apply half_step_ok; [exact B|lia]. }
  cbn [bind]. exists (j :: vs). split; [|split; [cbn [length]; lia|]].
  - rewrite <- !N.iter_succ_r, <- !Nat2N.inj_succ. reflexivity.
  - intros [|i] Hi; [exact J|]. cbn [nth]. specialize (V i ltac:(lia)). rewrite <- !N.iter_succ_r, <- !Nat2N.inj_succ in V. exact V.
Qed.
Lemma iter_fixed {A} (f : A -> A) x n : f x = x -> N.iter n f x = x.
Proof. intro H. induction n as [|n IH] using N.peano_ind; [reflexivity|]. rewrite N.iter_succ, IH. exact H. Qed.

(** After seeding with 500990680 every number is in the top 65537 of the 2^32
    possible ones. *)
Theorem C85_upper_refuted : forall dv n, exists st vs st', r_set MARSAGLIA_MULTICARRY dv 500990680 = Ok st /\
  draws (r_get MARSAGLIA_MULTICARRY) n st = Ok (vs, st') /\ Forall (fun v => 4294901759 <= v) vs.
Proof.
  intros dv n. assert (E0 : r_set MARSAGLIA_MULTICARRY dv 500990680 = (@Ok (list N) ([2422800383; 4178833972] ++ skipn 2 dv))) by (rewrite mc_set; vm_compute; reflexivity).
  rewrite E0.
  destruct (mc_draws n 2422800383 4178833972 (skipn 2 dv) eq_refl eq_refl) as (vs & D & L & V).
  eexists _, vs, _. split; [reflexivity|]. split; [exact D|]. apply Forall_forall. intros v Hv. apply (In_nth _ _ 0) in Hv. destruct Hv as (i & Hi & <-).
  specialize (V i ltac:(lia)). cbv zeta in V. rewrite (iter_fixed (half_step 36969)) in V by reflexivity.
  change (2422800383 mod 65536) with 65535 in V. generalize dependent (N.iter (N.of_nat (S i)) (half_step 18000) 4178833972 mod 65536). intros. lia.
Qed.
(** After seeding with 2267926323 the low 16 bits of every number are 65534 or 65535. *)
Theorem C85_lower_refuted : forall dv n, exists st vs st', r_set MARSAGLIA_MULTICARRY dv 2267926323 = Ok st /\
  draws (r_get MARSAGLIA_MULTICARRY) n st = Ok (vs, st') /\ Forall (fun v => v mod 65536 = 65534 \/ v mod 65536 = 65535) vs.
Proof.
  intros dv n. assert (E0 : r_set MARSAGLIA_MULTICARRY dv 2267926323 = (@Ok (list N) ([1137357302; 1179647999] ++ skipn 2 dv))) by (rewrite mc_set; vm_compute; reflexivity).
  rewrite E0.
  destruct (mc_draws n 1137357302 1179647999 (skipn 2 dv) eq_refl eq_refl) as (vs & D & L & V).
  eexists _, vs, _. split; [reflexivity|]. split; [exact D|]. apply Forall_forall. intros v Hv. apply (In_nth _ _ 0) in Hv. destruct Hv as (i & Hi & <-).
  specialize (V i ltac:(lia)). cbv zeta in V. rewrite (iter_fixed (half_step 18000)) in V by reflexivity.
  change (1179647999 mod 65536) with 65535 in V. generalize dependent (N.iter (N.of_nat (S i)) (half_step 36969) 1137357302 mod 65536). intros m V.
  generalize dependent (nth i vs 0). intros v V. assert (v = 65536 * m + 65534 \/ v = 65536 * m + 65535) as [-> | ->] by lia.
  - left. rewrite N.add_comm, N.mul_comm, N.mod_add by discriminate. reflexivity.
  - right. rewrite N.add_comm, N.mul_comm, N.mod_add by discriminate. reflexivity.
Qed.
(** These are all the seeds for which a half stops changing. *)
Lemma congruential_lt v : congruential v < 2 ^ 32.
Proof. apply N.mod_lt. discriminate. Qed.
Lemma congruential_back v : v < 2 ^ 32 -> (2783094533 * (congruential v + 4294967295)) mod 2 ^ 32 = v.
Proof.
  intro H. unfold congruential. rewrite <- N.mul_mod_idemp_r, N.add_mod_idemp_l, N.mul_mod_idemp_r by discriminate.
  replace (2783094533 * (69069 * v + 1 + 4294967295)) with (v + (44756 * v + 2783094533) * 2 ^ 32) by (change (2 ^ 32) with 4294967296; lia).
  rewrite N.mod_add by discriminate. apply N.mod_small. exact H.
Qed.
Lemma iter_congruential_inj n : forall v w, v < 2 ^ 32 -> w < 2 ^ 32 -> N.iter n congruential v = N.iter n congruential w -> v = w.
Proof.
  induction n as [|n IH] using N.peano_ind; intros v w V W; [auto|]. rewrite !N.iter_succ_r. intro E.
  apply IH in E; [|apply congruential_lt..]. rewrite <- (congruential_back v V), <- (congruential_back w W), E. reflexivity.
Qed.
Lemma split16 v : v < 2 ^ 32 -> v = 65536 * (v / 65536) + v mod 65536 /\ v mod 65536 < 65536 /\ v / 65536 < 65536.
Proof.
  intro H. split; [apply N.div_mod; discriminate|]. split; [apply N.mod_lt; discriminate|].
  apply N.div_lt_upper_bound; [discriminate|exact H].
Qed.
Lemma half_fixed a v : N.gcd 65535 (a - 1) = 1 -> 1 <= a -> a - 1 < 65535 -> v < 2 ^ 32 -> half_step a v = v -> v = 0 \/ v = a * 65536 - 1.
Proof.
  intros G A A2 V. destruct (split16 v V) as (E & L & H). unfold half_step. rewrite E at 3.
  generalize dependent (v mod 65536). generalize dependent (v / 65536). intros h H l E L F. subst v. clear V.
  assert (F' : (a - 1) * l = 65535 * h) by (rewrite N.mul_sub_distr_r; lia).
  assert (D : (65535 | l)).
  { apply N.gauss with (a - 1); [|exact G]. exists h. rewrite F'. apply N.mul_comm. }
  destruct D as [q ->]. assert (q = 0 \/ q = 1) as [-> | ->] by lia.
  - left. lia.
  - right. assert (h = a - 1) by lia. subst h. lia.
Qed.
Lemma upper_back v : v < 2 ^ 32 -> half_step 36969 v = 2422800383 -> v = 2422800383.
Proof.
  intro V. destruct (split16 v V) as (E & L & H). unfold half_step. rewrite E at 3. clear V E.
  generalize dependent (v mod 65536). generalize dependent (v / 65536). intros h H l L. lia.
Qed.
Lemma lower_back v : v < 2 ^ 32 -> half_step 18000 v = 1179647999 -> v = 1179647999 \/ v = 2359295998 \/ v = 3538943997.
Proof.
  intro V. destruct (split16 v V) as (E & L & H). unfold half_step. rewrite E at 3 4 5. clear V E.
  generalize dependent (v mod 65536). generalize dependent (v / 65536). intros h H l L. lia.
Qed.
Lemma zero_back a v : 0 < a -> half_step a v = 0 -> v = 0.
Proof.
  unfold half_step. intros A E. rewrite (N.div_mod v 65536) by discriminate.
  generalize dependent (v mod 65536). generalize dependent (v / 65536). intros h l E. nia.
Qed.
Lemma half_lt a v : v < 2 ^ 32 -> a <= 65535 -> half_step a v < 2 ^ 32.
Proof. intros. apply half_step_ok; assumption. Qed.
Lemma half_iter_lt a n : a <= 65535 -> forall v, v < 2 ^ 32 -> N.iter n (half_step a) v < 2 ^ 32.
Proof. intros A v V. induction n as [|n IH] using N.peano_ind; [exact V|]. rewrite N.iter_succ. apply half_lt; assumption. Qed.
Lemma half_iter_pos a n : 0 < a -> forall v, 0 < v -> 0 < N.iter n (half_step a) v.
Proof.
  intros A v V. induction n as [|n IH] using N.peano_ind; [exact V|]. rewrite N.iter_succ.
  destruct (N.eq_dec (half_step a (N.iter n (half_step a) v)) 0) as [E|E]; [|lia]. apply zero_back in E; [|exact A]. lia.
Qed.
Lemma upper_iter n : forall v, v < 2 ^ 32 -> N.iter n (half_step 36969) v = 2422800383 -> v = 2422800383.
Proof.
  induction n as [|n IH] using N.peano_ind; intros v V E; [exact E|]. rewrite N.iter_succ in E.
  apply IH; [exact V|]. apply upper_back; [apply half_iter_lt; [lia|exact V]|exact E].
Qed.
Lemma lower_iter n : forall v, v < 2 ^ 32 -> N.iter n (half_step 18000) v = 1179647999 -> v = 1179647999 \/ v = 2359295998 \/ v = 3538943997.
Proof.
  induction n as [|n IH] using N.peano_ind; intros v V E; [left; exact E|]. rewrite N.iter_succ_r in E.
  assert (S : half_step 18000 v = 1179647999 \/ half_step 18000 v = 2359295998 \/ half_step 18000 v = 3538943997) by (apply IH; [apply half_lt; [exact V|lia]|exact E]).
  destruct S as [S|S]; [apply lower_back; assumption|exfalso].
  destruct (split16 v V) as (_ & L & H). unfold half_step in S.
  generalize dependent (v mod 65536). generalize dependent (v / 65536). intros h H l; intros; lia.
Qed.
Definition stops (i : nat) (st : list N) : Prop := exists n vs st1 v st2,
  draws (r_get MARSAGLIA_MULTICARRY) n st = Ok (vs, st1) /\ r_get MARSAGLIA_MULTICARRY st1 = Ok (v, st2) /\ nth i st2 0 = nth i st1 0.
Lemma stops_iff a b rest : a < 2 ^ 32 -> b < 2 ^ 32 ->
  (stops 0 ([a; b] ++ rest) <-> exists n, half_step 36969 (N.iter n (half_step 36969) a) = N.iter n (half_step 36969) a) /\
  (stops 1 ([a; b] ++ rest) <-> exists n, half_step 18000 (N.iter n (half_step 18000) b) = N.iter n (half_step 18000) b).
Proof.
  intros A B.
  assert (H : forall n, exists vs v, draws (r_get MARSAGLIA_MULTICARRY) n ([a; b] ++ rest) =
    Ok (vs, [N.iter (N.of_nat n) (half_step 36969) a; N.iter (N.of_nat n) (half_step 18000) b] ++ rest) /\
    r_get MARSAGLIA_MULTICARRY ([N.iter (N.of_nat n) (half_step 36969) a; N.iter (N.of_nat n) (half_step 18000) b] ++ rest) =
    Ok (v, [half_step 36969 (N.iter (N.of_nat n) (half_step 36969) a); half_step 18000 (N.iter (N.of_nat n) (half_step 18000) b)] ++ rest)).
  { intro n. destruct (mc_draws n a b rest A B) as (vs & D & _). 
    destruct (mc_get (N.iter (N.of_nat n) (half_step 36969) a) (N.iter (N.of_nat n) (half_step 18000) b) rest) as (v & E & _); [apply half_iter_lt; [lia|assumption]..|].
    exists vs, v. auto. }
  split; split.
  - intros (n & vs & st1 & v & st2 & D & E & S). destruct (H n) as (vs' & v' & D' & E'). assert (st1 = [N.iter (N.of_nat n) (half_step 36969) a; N.iter (N.of_nat n) (half_step 18000) b] ++ rest) by congruence. subst st1. exists (N.of_nat n).
    rewrite E' in E. injection E as _ <-. exact S.
  - intros (n & E). destruct (H (N.to_nat n)) as (vs' & v' & D' & E'). rewrite N2Nat.id in *. do 5 eexists. split; [exact D'|]. split; [exact E'|]. exact E.
  - intros (n & vs & st1 & v & st2 & D & E & S). destruct (H n) as (vs' & v' & D' & E'). assert (st1 = [N.iter (N.of_nat n) (half_step 36969) a; N.iter (N.of_nat n) (half_step 18000) b] ++ rest) by congruence. subst st1. exists (N.of_nat n).
    rewrite E' in E. injection E as _ <-. exact S.
  - intros (n & E). destruct (H (N.to_nat n)) as (vs' & v' & D' & E'). rewrite N2Nat.id in *. do 5 eexists. split; [exact D'|]. split; [exact E'|]. exact E.
Qed.
Theorem C85_exact : forall dv s, s < 2 ^ 32 -> exists st, r_set MARSAGLIA_MULTICARRY dv s = Ok st /\
  (stops 0 st <-> s = 500990680) /\ (stops 1 st <-> s = 2267926323 \/ s = 2374165890 \/ s = 2480405457).
Proof.
  intros dv s S. rewrite mc_set. cbv beta zeta. eexists. split; [reflexivity|]. rewrite (N.mod_small s) by exact S.
  set (a := N.iter 51 congruential s). set (b := N.iter 52 congruential s).
  assert (A : a < 2 ^ 32) by (unfold a; change 51 with (N.succ 50); rewrite N.iter_succ; apply congruential_lt).
  assert (B : b < 2 ^ 32) by (unfold b; change 52 with (N.succ 51); rewrite N.iter_succ; apply congruential_lt).
  assert (I : forall k v t, t < 2 ^ 32 -> N.iter k congruential t = v -> (N.iter k congruential s = v <-> s = t)).
  { intros k v t T E. split; [|intros ->; exact E]. intro E'. apply (iter_congruential_inj k); auto. congruence. }
  assert (Ia : a = 2422800383 <-> s = 500990680) by (apply I; [reflexivity|vm_compute; reflexivity]).
  assert (Ib1 : b = 1179647999 <-> s = 2267926323) by (apply I; [reflexivity|vm_compute; reflexivity]).
  assert (Ib2 : b = 2359295998 <-> s = 2374165890) by (apply I; [reflexivity|vm_compute; reflexivity]).
  assert (Ib3 : b = 3538943997 <-> s = 2480405457) by (apply I; [reflexivity|vm_compute; reflexivity]).
  clearbody a b. clear I.
  set (a' := if a =? 0 then 1 else a). set (b' := if b =? 0 then 1 else b).
  assert (A' : a' < 2 ^ 32) by (apply nz_bound32, A). assert (B' : b' < 2 ^ 32) by (apply nz_bound32, B).
  assert (A0 : 0 < a') by (unfold a'; destruct (N.eqb_spec a 0); lia). assert (B0 : 0 < b') by (unfold b'; destruct (N.eqb_spec b 0); lia).
  destruct (stops_iff a' b' (skipn 2 dv) A' B') as [-> ->]. split.
  - rewrite <- Ia. transitivity (a' = 2422800383); [|unfold a'; destruct (N.eqb_spec a 0); lia]. split.
    + intros (n & E). apply half_fixed in E; [|reflexivity|lia|lia|apply half_iter_lt; [lia|exact A']].
      pose proof (half_iter_pos 36969 n ltac:(lia) a' A0). destruct E as [E|E]; [lia|]. apply (upper_iter n); assumption.
    + intros ->. exists 0. reflexivity.
  - rewrite <- Ib1, <- Ib2, <- Ib3. transitivity (b' = 1179647999 \/ b' = 2359295998 \/ b' = 3538943997); [|unfold b'; destruct (N.eqb_spec b 0); lia]. split.
    + intros (n & E). apply half_fixed in E; [|reflexivity|lia|lia|apply half_iter_lt; [lia|exact B']].
      pose proof (half_iter_pos 18000 n ltac:(lia) b' B0). destruct E as [E|E]; [lia|]. apply (lower_iter n); assumption.
    + intros [-> | [-> | ->]]; [exists 0|exists 1|exists 1]; reflexivity.
Qed.
Example C85_ex : (do st <- r_set MARSAGLIA_MULTICARRY [] 500990680 ;; do (vs, st) <- draws (r_get MARSAGLIA_MULTICARRY) 1 st ;; Ok vs) =
  Ok [4294959442].
Proof. vm_compute. reflexivity. Qed.

(** ** C86: generators in use at the same time *)
(** Seeding another of the six whose state covers the state of the first: the
    numbers of the first no longer depend on its own seed. *)
Theorem C86_shared_refuted : forall k k' dv s1 s2 t n, (n_seed k <= n_seed k')%nat -> exists d1 d2 e1 e2,
  r_set k dv s1 = Ok d1 /\ r_set k' d1 t = Ok e1 /\ r_set k dv s2 = Ok d2 /\ r_set k' d2 t = Ok e2 /\
  draws (r_get k) n e1 = draws (r_get k) n e2.
Proof.
  intros k k' dv s1 s2 t n H. destruct (set_good k dv s1) as (l1 & E1 & _ & G1). destruct (set_good k dv s2) as (l2 & E2 & _ & G2).
  pose proof (good_length k l1 G1) as L1. pose proof (good_length k l2 G2) as L2.
  destruct (set_good k' (l1 ++ skipn (n_seed k) dv) t) as (m & M1 & I1 & _). destruct (set_good k' (l2 ++ skipn (n_seed k) dv) t) as (m' & M2 & I2 & _).
  assert (m' = m) by congruence. subst m'.
  do 4 eexists. split; [exact E1|]. split; [exact M1|]. split; [exact E2|]. split; [exact M2|].
  rewrite !skipn_app, (skipn_all2 l1), (skipn_all2 l2) by lia. rewrite L1, L2. reflexivity.
Qed.
(** Drawing from the Mersenne twister after multicarry was seeded, for about half of the seeds: the position
    in the state is negative. *)
Theorem C86_overrun_refuted : exists s, forall dv t, exists d e, r_set MERSENNE_TWISTER dv t = Ok d /\ r_set MARSAGLIA_MULTICARRY d s = Ok e /\
  exists m, r_get MERSENNE_TWISTER e = UB m.
Proof.
  exists 500990680. intros dv t. destruct (set_good MERSENNE_TWISTER dv t) as (l & E & _ & G). pose proof (good_length _ _ G) as L. cbn [n_seed] in L.
  exists (l ++ skipn 625 dv). exists ([2422800383; 4178833972] ++ skipn 2 (l ++ skipn 625 dv)). split; [exact E|].
  split; [rewrite mc_set; vm_compute; reflexivity|]. destruct l as [|a [|b l]]; try discriminate. cbn [app skipn].
  generalize (l ++ skipn 625 dv). intro r. eexists. unfold r_get, r_get_double. cbn [n_seed firstn]. cbn [r_words].
  unfold mt_genrand. reflexivity.
Qed.

(** ** C87: the period of R_wichmann_hill *)
Lemma mult_itr a p k : 0 < p -> forall v, itr (fun x => (a * x) mod p) k v mod p = (a ^ k * v) mod p.
Proof.
  intros P v. induction k as [|k IH] using N.peano_ind; [rewrite N.pow_0_r, N.mul_1_l; reflexivity|].
  rewrite itr_succ. rewrite N.mod_mod by lia. rewrite <- N.mul_mod_idemp_r, IH, N.mul_mod_idemp_r by lia.
  rewrite N.pow_succ_r', N.mul_assoc. reflexivity.
Qed.
Fixpoint mpow (a p : N) (k : positive) : N :=
  match k with
  | xH => a mod p
  | xO k => let r := mpow a p k in (r * r) mod p
  | xI k => let r := mpow a p k in (a * (r * r)) mod p
  end.
Lemma mpow_ok a p k : 0 < p -> mpow a p k = a ^ N.pos k mod p.
Proof.
  intro P. induction k as [k IH|k IH|]; cbn [mpow].
  - rewrite IH. replace (N.pos k~1) with (N.succ (N.pos k + N.pos k)) by lia. rewrite N.pow_succ_r', N.pow_add_r.
    rewrite <- N.mul_mod_idemp_r, <- N.mul_mod by lia. rewrite N.mul_mod_idemp_r by lia. reflexivity.
  - rewrite IH. replace (N.pos k~0) with (N.pos k + N.pos k) by lia. rewrite N.pow_add_r, <- N.mul_mod by lia. reflexivity.
  - rewrite N.pow_1_r. reflexivity.
Qed.
Lemma itr_mpow a p k : 1 < p -> itr (fun x => (a * x) mod p) (N.pos k) 1 = mpow a p k.
Proof.
  intro P. rewrite mpow_ok by lia. pose proof (mult_itr a p (N.pos k) ltac:(lia) 1) as M. rewrite N.mul_1_r in M. rewrite <- M.
  symmetry. apply N.mod_small. replace (N.pos k) with (N.succ (N.pred (N.pos k))) by lia. rewrite itr_succ. apply N.mod_lt. lia.
Qed.
Lemma mult_period a p ps : (1 < p /\ forall d, (d | p) -> d = 1 \/ d = p) -> prime_list ps ->
  itr (fun x => (a * x) mod p) (product ps) 1 = 1 ->
  (forall q, In q ps -> itr (fun x => (a * x) mod p) (product ps / q) 1 <> 1 /\ product ps / q <> 0) ->
  forall v, 0 < v < p -> forall k, itr (fun x => (a * x) mod p) k v = v <-> (product ps | k).
Proof.
  intros PP PL E1 E2 v V. destruct PP as [P1 PD].
  assert (U : forall k, k <> 0 -> itr (fun x => (a * x) mod p) k v = v <-> itr (fun x => (a * x) mod p) k 1 = 1).
  { intros k K. assert (B : forall w, itr (fun x => (a * x) mod p) k w < p).
    { intro w. replace k with (N.succ (N.pred k)) by lia. rewrite itr_succ. apply N.mod_lt. lia. }
    pose proof (mult_itr a p k ltac:(lia) v) as Mv. pose proof (mult_itr a p k ltac:(lia) 1) as M1.
    rewrite N.mod_small in Mv by apply B. rewrite N.mod_small in M1 by apply B. rewrite N.mul_1_r in M1.
    rewrite Mv, M1. rewrite <- N.mul_mod_idemp_l by lia. rewrite <- (N.mod_small v p) at 2 by lia.
    assert (R : a ^ k mod p < p) by (apply N.mod_lt; lia). clear Mv M1. revert R. generalize (a ^ k mod p). intros r R. split.
    - intro E. destruct (N.eq_dec r 0) as [->|R0]; [rewrite N.mul_0_l, N.mod_0_l, N.mod_small in E by lia; lia|].
      assert (D : ((r - 1) * v) mod p = 0).
      { rewrite N.mul_sub_distr_r, N.mul_1_l. apply N.mod_divide; [lia|].
        pose proof (N.div_mod (r * v) p ltac:(lia)) as D. rewrite E, (N.mod_small v p) in D by lia. rewrite D.
        rewrite N.add_sub. exists (r * v / p). apply N.mul_comm. }
      destruct (N.eq_dec r 1) as [R1|R1]; [exact R1|exfalso].
      pose proof (mul_mod_nonzero (r - 1) v p (conj P1 PD) ltac:(lia) V). lia.
    - intros ->. rewrite N.mul_1_l. reflexivity. }
  intro k. destruct (N.eq_dec k 0) as [->|K]; [split; [intros _; exists 0; reflexivity|reflexivity]|]. rewrite (U k K). split.
  - intro H. apply (exact_period (fun x => (a * x) mod p) ps 1 PL E1); [|exact H]. intros q Q. apply E2, Q.
  - intros [q ->]. apply itr_mul_fix. exact E1.
Qed.
Lemma wh_get a b c rest : 0 < a < 30269 -> 0 < b < 30307 -> 0 < c < 30323 ->
  exists j, r_get WICHMANN_HILL ([a; b; c] ++ rest) = Ok (j, [171 * a mod 30269; 172 * b mod 30307; 170 * c mod 30323] ++ rest).
Proof.
  intros A B C. assert (G : r_good WICHMANN_HILL [a; b; c]) by (exists a, b, c; auto).
  destruct (get_good _ _ rest G) as (j & l' & E & _ & _). exists j. rewrite E. revert E. unfold r_get.
  destruct (double_good _ _ rest G) as (u & w & l2 & -> & W & _). rewrite wh_words in W by lia. cbn [bind].
  destruct (to_ulong _); cbn [bind]; intro E; try discriminate. assert (l2 ++ rest = l' ++ rest) by congruence. congruence.
Qed.
Lemma step_range a v p : (1 < p /\ forall d, (d | p) -> d = 1 \/ d = p) -> 0 < a < p -> 0 < v < p -> 0 < (a * v) mod p < p.
Proof. intros P A V. split; [apply mul_mod_nonzero; assumption|apply N.mod_lt; lia]. Qed.
Lemma wh_draws n : forall a b c rest, 0 < a < 30269 -> 0 < b < 30307 -> 0 < c < 30323 ->
  exists vs, draws (r_get WICHMANN_HILL) n ([a; b; c] ++ rest) =
    Ok (vs, [itr (fun x => (171 * x) mod 30269) (N.of_nat n) a; itr (fun x => (172 * x) mod 30307) (N.of_nat n) b; itr (fun x => (170 * x) mod 30323) (N.of_nat n) c] ++ rest).
Proof.
  induction n as [|n IH]; intros a b c rest A B C; [exists []; reflexivity|]. cbn [draws].
  destruct (wh_get a b c rest A B C) as (j & ->). cbn [bind].
  destruct (IH (171 * a mod 30269) (172 * b mod 30307) (170 * c mod 30323) rest) as (vs & ->).
  - apply step_range; [apply prime_30269|lia|exact A].
  - apply step_range; [apply prime_30307|lia|exact B].
  - apply step_range; [apply prime_30323|lia|exact C].
  - cbn [bind]. exists (j :: vs). rewrite Nat2N.inj_succ. unfold itr. rewrite !N.iter_succ_r. reflexivity.
Qed.
Ltac order := split; [|vm_compute; discriminate];
  match goal with |- itr _ ?k 1 <> _ => change k with (N.pos (match k with N.pos p => p | _ => xH end)) end;
  rewrite itr_mpow by reflexivity; vm_compute; discriminate.
Lemma period_1 v k : 0 < v < 30269 -> itr (fun x => (171 * x) mod 30269) k v = v <-> (30268 | k).
Proof.
  intro V. change 30268 with (product [2; 2; 7; 23; 47]). apply mult_period; [apply prime_30269| | | |exact V].
  - unfold prime_list. repeat apply Forall_cons; try apply Forall_nil; apply prime_test; reflexivity.
  - match goal with |- itr _ ?k 1 = _ => change k with (N.pos (match k with N.pos p => p | _ => xH end)) end.
    rewrite itr_mpow by reflexivity. vm_compute. reflexivity.
  - intros q Q. cbn [In] in Q. destruct Q as [<- | [<- | [<- | [<- | [<- | []]]]]]; order.
Qed.
Lemma period_2 v k : 0 < v < 30307 -> itr (fun x => (172 * x) mod 30307) k v = v <-> (30306 | k).
Proof.
  intro V. change 30306 with (product [2; 3; 5051]). apply mult_period; [apply prime_30307| | | |exact V].
  - unfold prime_list. repeat apply Forall_cons; try apply Forall_nil; apply prime_test; reflexivity.
  - match goal with |- itr _ ?k 1 = _ => change k with (N.pos (match k with N.pos p => p | _ => xH end)) end.
    rewrite itr_mpow by reflexivity. vm_compute. reflexivity.
  - intros q Q. cbn [In] in Q. destruct Q as [<- | [<- | [<- | []]]]; order.
Qed.
Lemma period_3 v k : 0 < v < 30323 -> itr (fun x => (170 * x) mod 30323) k v = v <-> (30322 | k).
Proof.
  intro V. change 30322 with (product [2; 15161]). apply mult_period; [apply prime_30323| | | |exact V].
  - unfold prime_list. repeat apply Forall_cons; try apply Forall_nil; apply prime_test; reflexivity.
  - match goal with |- itr _ ?k 1 = _ => change k with (N.pos (match k with N.pos p => p | _ => xH end)) end.
    rewrite itr_mpow by reflexivity. vm_compute. reflexivity.
  - intros q Q. cbn [In] in Q. destruct Q as [<- | [<- | []]]; order.
Qed.
(** For every seed the state returns after exactly 6953607871644 draws. *)
Theorem C87_period : forall dv s n, exists st vs st', r_set WICHMANN_HILL dv s = Ok st /\
  draws (r_get WICHMANN_HILL) n st = Ok (vs, st') /\ (st' = st <-> (6953607871644 | N.of_nat n)).
Proof.
  intros dv s n. destruct (set_good WICHMANN_HILL dv s) as (l & E & _ & a & b & c & -> & A & B & C).
  destruct (wh_draws n a b c (skipn 3 dv) A B C) as (vs & D). do 3 eexists. split; [exact E|]. split; [exact D|].
  cbn [n_seed]. transitivity ((30268 | N.of_nat n) /\ (30306 | N.of_nat n) /\ (30322 | N.of_nat n)).
  - rewrite <- (period_1 a _ A), <- (period_2 b _ B), <- (period_3 c _ C). split.
    + intro H. apply app_inv_tail in H. injection H as H1 H2 H3. auto.
    + intros (-> & -> & ->). reflexivity.
  - split.
    + intros (D1 & D2 & D3). change 6953607871644 with (N.lcm (N.lcm 30268 30306) 30322). apply N.lcm_least; [apply N.lcm_least|]; assumption.
    + intro H. split; [|split]; (eapply N.divide_trans; [|exact H]); [exists 229734633|exists 229446574|exists 229325502]; reflexivity.
Qed.
Example C87_ex : (do st <- r_set WICHMANN_HILL [] 1 ;; do (vs, st) <- draws (r_get WICHMANN_HILL) 1 st ;; Ok vs) = Ok [557114869].
Proof. vm_compute. reflexivity. Qed.
Print Assumptions C85_exact.
Print Assumptions C87_period.
