(** The invariants of the six generators from GNU R. *)
From Coq Require Import Reals.
From Verif Require Import RSpec RLemmas RDoubles GensLemmas LinearLemmas.
From Flocq Require Import IEEE754.BinarySingleNaN.
Open Scope N_scope.

Lemma land_w32 a m : m < 2 ^ 32 -> N.land (w32 a) m = N.land a m.
Proof.
  intro H. unfold w32. rewrite <- N.land_ones, <- N.land_assoc. f_equal. rewrite N.land_comm.
  rewrite N.land_ones. apply N.mod_small. exact H.
Qed.
Lemma temper_spec y : mt_temper y = temper y.
Proof.
  unfold mt_temper, temper. rewrite !N.shiftr_div_pow2, !N.shiftl_mul_pow2, !land_w32 by reflexivity. reflexivity.
Qed.
Lemma div_lt a b m : a < m -> b <> 0 -> a / b < m.
Proof. intros H B. apply N.div_lt_upper_bound; [exact B|]. nia. Qed.
Lemma land_lt_r a m b : m < 2 ^ b -> N.land a m < 2 ^ b.
Proof.
  intro H. replace m with (N.land m (N.ones b)) by (rewrite N.land_ones; apply N.mod_small; exact H).
  rewrite N.land_assoc, N.land_ones. apply N.mod_lt. apply N.pow_nonzero. discriminate.
Qed.
Lemma temper_lt y : y < 2 ^ 32 -> temper y < 2 ^ 32.
Proof.
  intro H. unfold temper. cbv zeta.
  assert (A : forall z, z < 2 ^ 32 -> forall b, b <> 0 -> N.lxor z (z / b) < 2 ^ 32) by (intros; apply lxor_w32_lt; [|apply div_lt]; assumption).
  assert (B : forall z w m, z < 2 ^ 32 -> m < 2 ^ 32 -> N.lxor z (N.land w m) < 2 ^ 32) by (intros; apply lxor_w32_lt; [|apply land_lt_r]; assumption).
  apply A; [|discriminate]. apply B; [|reflexivity]. apply B; [|reflexivity]. apply A; [exact H|discriminate].
Qed.

(** The words of the generator. *)
Definition r_good (k : rkind) (l : list N) : Prop :=
  match k with
  | WICHMANN_HILL => exists a b c, l = [a; b; c] /\ 0 < a < 30269 /\ 0 < b < 30307 /\ 0 < c < 30323
  | MARSAGLIA_MULTICARRY | SUPER_DUPER => exists a b, l = [a; b] /\ a < 2 ^ 32 /\ b < 2 ^ 32
  | MERSENNE_TWISTER => exists x n, mt19937 x /\ (forall i, x i < 2 ^ 32) /\ mt_good x n l
  | KNUTH_TAOCP | KNUTH_TAOCP2 => exists x n, lagged x /\ (forall i, x i < 2 ^ 30) /\ kt_good x n l
  end.
Lemma mul_mod_nonzero a v p : (1 < p /\ forall d, (d | p) -> d = 1 \/ d = p) -> 0 < a < p -> 0 < v < p -> 0 < (a * v) mod p.
Proof.
  intros [P1 P] A V. destruct (N.eq_dec ((a * v) mod p) 0) as [E|E]; [exfalso|lia].
  apply N.mod_divide in E; [|lia].
  assert (G : N.gcd p a = 1).
  { destruct (P (N.gcd p a) (N.gcd_divide_l p a)) as [G|G]; [exact G|exfalso].
    pose proof (N.divide_pos_le _ a ltac:(lia) (N.gcd_divide_r p a)). lia. }
  apply N.gauss in E; [|exact G]. apply N.divide_pos_le in E; lia.
Qed.
Lemma prime_30269 : 1 < 30269 /\ forall d, (d | 30269) -> d = 1 \/ d = 30269.
Proof. apply prime_test; reflexivity. Qed.
Lemma prime_30307 : 1 < 30307 /\ forall d, (d | 30307) -> d = 1 \/ d = 30307.
Proof. apply prime_test; reflexivity. Qed.
Lemma prime_30323 : 1 < 30323 /\ forall d, (d | 30323) -> d = 1 \/ d = 30323.
Proof. apply prime_test; reflexivity. Qed.
Lemma wh_words a b c : a < 30269 -> b < 30307 -> c < 30323 ->
  r_words WICHMANN_HILL [a; b; c] = Ok ([171 * a mod 30269; 172 * b mod 30307; 170 * c mod 30323], [171 * a mod 30269; 172 * b mod 30307; 170 * c mod 30323]).
Proof.
  intros A B C. cbn [r_words]. rewrite (aget_ok [a; b; c] 0 0), (aget_ok [a; b; c] 1 0), (aget_ok [a; b; c] 2 0) by (cbn [length]; lia).
  cbn [bind nth Z.to_nat]. change (Pos.to_nat 1) with 1%nat. change (Pos.to_nat 2) with 2%nat. cbn [nth].
  unfold mul32. rewrite !w32_small by (change (2 ^ 32) with 4294967296; lia). rewrite (N.mul_comm a), (N.mul_comm b), (N.mul_comm c). reflexivity.
Qed.
Lemma two_words (a b : N) : aget [a; b] 0 = Ok a /\ aget [a; b] 1 = Ok b.
Proof. split; reflexivity. Qed.

Lemma words_good k l : r_good k l -> exists w l', r_words k l = Ok (w, l') /\ r_in_range k w /\ r_good k l'.
Proof.
  destruct k; cbn [r_good r_in_range].
  - intros (a & b & c & -> & A & B & C). rewrite wh_words by lia. do 2 eexists. split; [reflexivity|].
    pose proof (mul_mod_nonzero 171 a 30269 prime_30269 ltac:(lia) A). pose proof (N.mod_lt (171 * a) 30269 ltac:(lia)).
    pose proof (mul_mod_nonzero 172 b 30307 prime_30307 ltac:(lia) B). pose proof (N.mod_lt (172 * b) 30307 ltac:(lia)).
    pose proof (mul_mod_nonzero 170 c 30323 prime_30323 ltac:(lia) C). pose proof (N.mod_lt (170 * c) 30323 ltac:(lia)).
    split; do 3 eexists; (split; [reflexivity|]); repeat split; assumption.
  - intros (a & b & -> & A & B). cbn [r_words]. destruct (two_words a b) as [-> ->]. cbn [bind].
    do 2 eexists. split; [reflexivity|]. split.
    + eexists. split; [reflexivity|]. apply lxor_w32_lt; [apply w32_lt|]. apply land_lt_r. reflexivity.
    + do 2 eexists. split; [reflexivity|]. split; apply w32_lt.
  - intros (a & b & -> & A & B). cbn [r_words]. destruct (two_words a b) as [-> ->]. cbn [bind].
    assert (A' : N.lxor a (N.land (N.shiftr a 15) 131071) < 2 ^ 32) by (apply lxor_w32_lt; [exact A|apply land_lt_r; reflexivity]).
    generalize dependent (N.lxor a (N.land (N.shiftr a 15) 131071)). intros a' A'.
    assert (A2 : N.lxor a' (w32 (N.shiftl a' 17)) < 2 ^ 32) by (apply lxor_w32_lt; [exact A'|apply w32_lt]).
    do 2 eexists. split; [reflexivity|]. split.
    + eexists. split; [reflexivity|]. apply lxor_w32_lt; [exact A2|apply w32_lt].
    + do 2 eexists. split; [reflexivity|]. split; [exact A2|apply w32_lt].
  - intros (x & n & X & B & G). cbn [r_words]. destruct (mt_genrand_ok x X B n l G) as (l' & -> & G'). cbn [bind].
    do 2 eexists. split; [reflexivity|]. split; [|exists x, (S n); auto].
    eexists. split; [reflexivity|]. rewrite temper_spec. apply temper_lt, B.
  - intros (x & n & X & B & G). cbn [r_words]. destruct (kt_next_ok x X B n l G) as (l' & -> & G'). cbn [bind].
    do 2 eexists. split; [reflexivity|]. split; [|exists x, (S n); auto].
    eexists. split; [reflexivity|]. apply B.
  - intros (x & n & X & B & G). cbn [r_words]. destruct (kt_next_ok x X B n l G) as (l' & -> & G'). cbn [bind].
    do 2 eexists. split; [reflexivity|]. split; [|exists x, (S n); auto].
    eexists. split; [reflexivity|]. apply B.
Qed.
Lemma good_length k l : r_good k l -> length l = n_seed k.
Proof.
  destruct k; cbn [r_good n_seed].
  - intros (a & b & c & -> & _). reflexivity.
  - intros (a & b & -> & _). reflexivity.
  - intros (a & b & -> & _). reflexivity.
  - intros (x & n & _ & _ & b & p & mt & -> & _ & _ & L & _). cbn [length]. rewrite L. reflexivity.
  - intros (x & n & _ & _ & b & p & rx & -> & L & _). rewrite app_length, L. reflexivity.
  - intros (x & n & _ & _ & b & p & rx & -> & L & _). rewrite app_length, L. reflexivity.
Qed.

(** Seeding. *)
Definition mt_words (seed : N) : list N := skipn 1 (expand 625 (N.iter 50 scramble seed)).
Lemma skipn_nth (l : list N) i d : forall n, nth i (skipn n l) d = nth (n + i) l d.
Proof.
  induction l as [|a l IH]; intros [|n]; try reflexivity.
  - cbn. destruct i; reflexivity.
  - cbn [skipn]. rewrite IH. reflexivity.
Qed.
Lemma init_mt_good seed : exists x, mt19937 x /\ (forall i, x i < 2 ^ 32) /\
  (forall i, (i < 624)%nat -> x i = N.iter (N.of_nat i + 52) scramble seed) /\
  mt_good x 0 (624 :: mt_words seed).
Proof.
  assert (L : length (mt_words seed) = 624%nat) by (unfold mt_words; rewrite skipn_length, expand_length; reflexivity).
  assert (F : Forall (fun v => v < 2 ^ 32) (mt_words seed)).
  { pose proof (expand_lt 625 (N.iter 50 scramble seed)) as F. unfold mt_words. rewrite Forall_forall in *. intros v Hv. apply F.
    rewrite <- (firstn_skipn 1). apply in_or_app. right. exact Hv. }
  destruct (twister_exists _ L F) as (x & X & B & E). exists x. split; [exact X|]. split; [exact B|]. split.
  - intros i Hi. rewrite E by exact Hi. unfold mt_words. rewrite skipn_nth, expand_nth by lia.
    rewrite <- N.iter_add. f_equal. lia.
  - exists 0%nat, 624%nat, (mt_words seed). split; [reflexivity|]. split; [lia|]. split; [lia|].
    split; [exact L|]. intros i Hi. rewrite <- E by exact Hi. f_equal.
Qed.
Lemma init_kt_good seed : exists x rx, init_kt seed = Ok (rx ++ [100]) /\ lagged x /\ (forall i, x i < 2 ^ 30) /\ kt_good x 0 (rx ++ [100]).
Proof.
  unfold init_kt. destruct (ran_start_ok (seed mod 1073741821)) as (rx & -> & L & F).
  destruct (lagged_exists rx L F) as (x & X & B & E). exists x, rx. split; [reflexivity|]. split; [exact X|]. split; [exact B|].
  exists 0%nat, 100%nat, rx. repeat split; auto; try lia. intros i Hi. symmetry. apply E. lia.
Qed.
Lemma nz_bound v m : 1 < m -> 0 < (if v mod m =? 0 then 1 else v mod m) < m.
Proof. intro M. pose proof (N.mod_lt v m ltac:(lia)). destruct (N.eqb_spec (v mod m) 0); lia. Qed.
Lemma nz_bound32 v : v < 2 ^ 32 -> (if v =? 0 then 1 else v) < 2 ^ 32.
Proof. intro H. destruct (v =? 0); [reflexivity|exact H]. Qed.
Lemma lor_1_lt v : v < 2 ^ 32 -> N.lor v 1 < 2 ^ 32.
Proof.
  intro H. rewrite <- (N.mod_small v (2 ^ 32)) by exact H. rewrite <- N.land_ones.
  change 1 with (N.land 1 (N.ones 32)). rewrite <- N.land_lor_distr_l, N.land_ones. apply N.mod_lt. discriminate.
Qed.
Lemma init_good now k seed : exists l, rng_init now k seed = Ok l /\ r_good k l.
Proof.
  destruct k.
  - replace (rng_init now WICHMANN_HILL seed) with (rng_init [] WICHMANN_HILL seed) by (destruct now; reflexivity).
    cbn [rng_init n_seed expand]. unfold fixup_seeds. generalize (N.iter 50 scramble seed). intro s.
    eexists. split; [reflexivity|]. do 3 eexists. split; [reflexivity|]. repeat split; apply nz_bound; reflexivity.
  - replace (rng_init now MARSAGLIA_MULTICARRY seed) with (rng_init [] MARSAGLIA_MULTICARRY seed) by (destruct now; reflexivity).
    cbn [rng_init n_seed expand]. unfold fixup_seeds. generalize (N.iter 50 scramble seed). intro s.
    eexists. split; [reflexivity|]. do 2 eexists. split; [reflexivity|]. split; apply nz_bound32, scramble_lt.
  - replace (rng_init now SUPER_DUPER seed) with (rng_init [] SUPER_DUPER seed) by (destruct now; reflexivity).
    cbn [rng_init n_seed expand]. unfold fixup_seeds. generalize (N.iter 50 scramble seed). intro s.
    eexists. split; [reflexivity|]. do 2 eexists. split; [reflexivity|]. split; [apply nz_bound32|apply lor_1_lt]; apply scramble_lt.
  - destruct (init_mt_good seed) as (x & X & B & _ & G). exists (624 :: mt_words seed). split; [|exists x, 0%nat; auto].
    unfold mt_words. assert (forall s, fixup_seeds MERSENNE_TWISTER (expand 625 s) = Ok (Some (624 :: skipn 1 (expand 625 s)))) as E.
    { intro s. unfold fixup_seeds. change 625%nat with (S (S (S 622))). rewrite expand_nonzero. reflexivity. }
    destruct now; cbn [rng_init n_seed]; rewrite E; reflexivity.
  - destruct (init_kt_good (N.iter 50 scramble seed)) as (x & rx & E & X & B & G). exists (rx ++ [100]).
    split; [destruct now; exact E|]. exists x, 0%nat. auto.
  - destruct (init_kt_good (N.iter 50 scramble seed)) as (x & rx & E & X & B & G). exists (rx ++ [100]).
    split; [destruct now; exact E|]. exists x, 0%nat. auto.
Qed.

(** The whole static array. *)
Definition dv_good (k : rkind) (dv : list N) : Prop := r_good k (firstn (n_seed k) dv).
Lemma firstn_slice k l (rest : list N) : length l = n_seed k -> firstn (n_seed k) (l ++ rest) = l /\ skipn (n_seed k) (l ++ rest) = rest.
Proof.
  intro L. split.
  - rewrite firstn_app, <- L, Nat.sub_diag, app_nil_r, firstn_all. reflexivity.
  - rewrite skipn_app, <- L, Nat.sub_diag, skipn_all. reflexivity.
Qed.
Lemma set_good k dv s : exists l, r_set k dv s = Ok (l ++ skipn (n_seed k) dv) /\ rng_init [] k (w32 s) = Ok l /\ r_good k l.
Proof.
  unfold r_set. destruct (init_good [] k (w32 s)) as (l & E & G). rewrite E. exists l. auto.
Qed.
Lemma double_good k l rest : r_good k l -> exists u w l', r_get_double k (l ++ rest) = Ok (u, l' ++ rest) /\
  r_words k l = Ok (w, l') /\ r_unif k w = Ok u /\ is_finite u = true /\ (0 < B2R u < 1)%R /\ r_good k l'.
Proof.
  intro G. destruct (firstn_slice k l rest (good_length k l G)) as [E1 E2]. unfold r_get_double. rewrite E1, E2.
  destruct (words_good k l G) as (w & l' & W & R & G'). rewrite W. cbn [bind].
  destruct (unif_ok k w R) as (u & E & F & U). rewrite E. cbn [bind]. exists u, w, l'. repeat (split; [first [reflexivity|assumption]|]). assumption.
Qed.
Lemma get_good k l rest : r_good k l -> exists j l', r_get k (l ++ rest) = Ok (j, l' ++ rest) /\ j < r_max k /\ r_good k l'.
Proof.
  intro G. unfold r_get. destruct (double_good k l rest G) as (u & w & l' & -> & W & U & F & B & G'). cbn [bind].
  assert (H : exists j, to_ulong (r_scale k u) = Ok j /\ j < r_max k).
  { destruct (words_good k l G) as (w' & l2 & W' & R & _). rewrite W' in W. injection W as <- <-.
    destruct k; try (apply scale32; assumption); cbn [r_in_range] in R; destruct R as (a & -> & A);
      destruct (kt_unif a A) as (u' & U1 & U2 & _ & T1 & T2); exists (N.pred a); (split; [congruence|]); cbn [r_max]; change (2 ^ 30 - 1) with 1073741823;
      change (2 ^ 30) with 1073741824 in A; lia. }
  destruct H as (j & -> & J). cbn [bind]. exists j, l'. auto.
Qed.
