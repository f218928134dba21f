(** The words of the DNA test as pairs of neighbouring columns of ten results,
    and the variance of the number of missing words. *)
From Coq Require Import Lia Lra Bool.
From Verif Require Import BaseLemmas NtupleLemmas.
From Verif Require Export DnaBlock MissingLaw2.
Open Scope R_scope.

(** ** blocks of results *)
Definition blk (m : nat) (l : list N) (b : nat) : list N := map (fun a => drawn l (m * b + a)) (seq 0 m).
Lemma blk_first m x y : length x = m -> blk m (x ++ y) 0 = x.
Proof.
  intro L. unfold blk. transitivity (map (drawn x) (seq 0 (length x))); [|apply drawn_map]. rewrite L. apply map_ext_in. intros a A. apply in_seq in A. rewrite Nat.mul_0_r.
  unfold drawn. cbn [Nat.add]. apply app_nth1. lia.
Qed.
Lemma blk_next m x y b : length x = m -> blk m (x ++ y) (S b) = blk m y b.
Proof.
  intro L. unfold blk. apply map_ext. intro a. rewrite Nat.mul_succ_r. unfold drawn. generalize (m * b)%nat. intro k. rewrite app_nth2 by lia. f_equal. lia.
Qed.
Lemma blocks_sum w m Psi n : lsumR (matrices w (m * n)) (fun l => rprod n (fun b => Psi (blk m l b))) = lsumR (matrices w m) Psi ^ n.
Proof.
  induction n as [|n IH]; [rewrite Nat.mul_0_r; cbn; ring|]. replace (m * S n)%nat with (m + m * n)%nat by lia. rewrite matrices_app. cbn [rprod pow]. rewrite <- IH.
  rewrite <- lsumR_scale_r. apply lsumR_ext. intros x X. apply in_matrices in X. destruct X as (L & _). rewrite <- lsumR_scale. apply lsumR_ext. intros y _.
  rewrite blk_first by exact L. f_equal. apply rprod_ext. intros b _. now rewrite blk_next.
Qed.
Lemma rprod_blocks k n : forall f, rprod (k * n) f = rprod n (fun b => rprod k (fun s => f (k * b + s)%nat)).
Proof.
  induction n as [|n IH]; intro f; [rewrite Nat.mul_0_r; reflexivity|]. replace (k * S n)%nat with (k + k * n)%nat by lia. rewrite rprod_app, IH. cbn [rprod]. f_equal.
  - apply rprod_ext. intros s _. f_equal. lia.
  - apply rprod_ext. intros b _. apply rprod_ext. intros s _. f_equal. lia.
Qed.

(** ** columns *)
Definition column (b : list N) (s : nat) : list N := map (fun x => field x (1 * N.of_nat s) 1) b.
Lemma columns_sum m k : forall G, lsumR (matrices (N.of_nat k) m) (fun b => G (map (column b) (seq 0 k))) = lsumR (tuples (matrices 1 m) k) G.
Proof.
  induction k as [|k IH]; intro G.
  - cbn [seq map tuples lsumR]. rewrite lsumR_const, matrices_len. change (IZR (2 ^ Z.of_N (N.of_nat 0))) with 1. rewrite pow1. ring.
  - replace (N.of_nat (S k)) with (1 + N.of_nat k)%N by lia. rewrite matrices_cut, tuples_sum. apply lsumR_ext. intros lo LO. apply in_matrices in LO. destruct LO as (L & Bd).
    rewrite <- (IH (fun c => G (lo :: c))). apply lsumR_ext. intros hi HI. apply in_matrices in HI. destruct HI as (L' & _). f_equal. cbn [seq map]. f_equal.
    + unfold column. apply join_low; [congruence|exact Bd].
    + rewrite <- seq_shift, map_map. apply map_ext. intro s. unfold column. apply join_high; [congruence|exact Bd].
Qed.
Definition enc (x : list N * list N) : N := spell 2 (join 1 (fst x) (snd x)).
Definition letters : list (list N) := matrices 1 10.
Lemma enc_sum h : lsumR (words 20) h = lsumR letters (fun a => lsumR letters (fun b => h (enc (a, b)))).
Proof.
  change 20%N with (2 * N.of_nat 10)%N. rewrite <- (spelled_sum 2 10 h). change 2%N with (1 + N.of_nat 1)%N at 1. rewrite (matrices_cut 1 1). reflexivity.
Qed.
Lemma spell_bound d : forall l, (forall x, In x l -> (x < 2 ^ d)%N) -> (spell d l < 2 ^ (d * N.of_nat (length l)))%N.
Proof.
  induction l as [|x l IH]; intro H; [cbn [length]; rewrite N.mul_0_r; reflexivity|]. rewrite spell_cons. cbn [length]. rewrite Nat2N.inj_succ, N.mul_succ_r, N.pow_add_r.
  specialize (IH (fun y Y => H y (or_intror Y))). specialize (H x (or_introl eq_refl)). nia.
Qed.
Lemma spell_inj d : forall l l', length l = length l' -> (forall x, In x l -> (x < 2 ^ d)%N) -> (forall x, In x l' -> (x < 2 ^ d)%N) -> spell d l = spell d l' -> l = l'.
Proof.
  induction l as [|x l IH]; intros [|y l'] L H H' E; try discriminate; [reflexivity|]. rewrite !spell_cons in E. cbn [length] in L. injection L as L. rewrite <- L in E.
  pose proof (spell_bound d l (fun z Z => H z (or_intror Z))) as B1. pose proof (spell_bound d l' (fun z Z => H' z (or_intror Z))) as B2. rewrite <- L in B2.
  set (P := (2 ^ (d * N.of_nat (length l)))%N) in *. assert (x = y) as ->.
  { assert (E1 : ((spell d l + P * x) / P = x)%N) by (symmetry; apply (N.div_unique _ P x (spell d l) B1); lia).
    rewrite E in E1. rewrite <- E1. symmetry. apply (N.div_unique _ P y (spell d l') B2). lia. }
  f_equal. apply IH; auto.
  - intros; apply H; now right.
  - intros; apply H'; now right.
  - lia.
Qed.
Lemma join_inj : forall a b a' b', length a = length b -> length a' = length b' -> length a = length a' -> (forall x, In x a -> (x < 2)%N) -> (forall x, In x a' -> (x < 2)%N) ->
  join 1 a b = join 1 a' b' -> a = a' /\ b = b'.
Proof.
  induction a as [|x a IH]; intros [|y b] [|x' a'] [|y' b'] L1 L2 L3 H H' E; try discriminate; [auto|]. cbn [join] in E. change (2 ^ 1)%N with 2%N in E.
  assert (E0 : (x + 2 * y = x' + 2 * y')%N) by congruence. assert (E1 : join 1 a b = join 1 a' b') by congruence. clear E. rename E1 into E. cbn [length] in *. pose proof (H x (or_introl eq_refl)). pose proof (H' x' (or_introl eq_refl)).
  destruct (IH b a' b') as (-> & ->); try lia; auto.
  - intros; apply H; now right.
  - intros; apply H'; now right.
  - assert (x = x') by lia. assert (y = y') by lia. subst. auto.
Qed.
Lemma join_len : forall a b, length a = length b -> length (join 1 a b) = length a.
Proof. induction a as [|x a IH]; intros [|y b] L; try discriminate; [reflexivity|]. cbn [join length] in *. f_equal. apply IH. lia. Qed.
Lemma join_lt : forall a b, length a = length b -> (forall x, In x a -> (x < 2)%N) -> (forall x, In x b -> (x < 2)%N) -> forall z, In z (join 1 a b) -> (z < 2 ^ 2)%N.
Proof.
  induction a as [|x a IH]; intros [|y b] L H H' z Z; try discriminate; [destruct Z|]. cbn [join] in Z. destruct Z as [<-|Z].
  - pose proof (H x (or_introl eq_refl)). pose proof (H' y (or_introl eq_refl)). change (2 ^ 1)%N with 2%N. change (2 ^ 2)%N with 4%N. lia.
  - apply (IH b); auto; intros; [apply H|apply H']; now right.
Qed.
Lemma enc_inj a b a' b' : In a letters -> In b letters -> In a' letters -> In b' letters -> enc (a, b) = enc (a', b') -> a = a' /\ b = b'.
Proof.
  intros A B A' B' E. apply in_matrices in A, B, A', B'. destruct A as (La & Ha), B as (Lb & Hb), A' as (La' & Ha'), B' as (Lb' & Hb'). unfold enc in E. cbn [fst snd] in E.
  apply join_inj; [congruence|congruence|congruence|exact Ha|exact Ha'|].
  apply (spell_inj 2); [rewrite !join_len by congruence; congruence|apply join_lt; [congruence|exact Ha|exact Hb]|apply join_lt; [congruence|exact Ha'|exact Hb']|exact E].
Qed.
Lemma matrices_nodup w m : NoDup (matrices w m).
Proof.
  induction m as [|m IH]; cbn [matrices]; [constructor; [intros []|constructor]|]. induction IH as [|r L N1 N2 IH2]; cbn [flat_map]; [constructor|].
  apply nodup_app; [|exact IH2|].
  - apply FinFun.Injective_map_NoDup; [intros a b E; congruence|apply words_nodup].
  - intros x X Y. apply in_map_iff in X. destruct X as (a & <- & _). apply in_flat_map in Y. destruct Y as (r' & R & Y). apply in_map_iff in Y. destruct Y as (b & E & _).
    injection E as _ ->. contradiction.
Qed.

(** ** the words of a block *)
Definition dword (b : list N) (s : nat) : N := spell 2 (map (fun x => around 32 x (N.of_nat s) 2) b).
Lemma around2 x s : (s < 32)%nat -> around 32 x (N.of_nat s) 2 = (field x (1 * N.of_nat s) 1 + 2 ^ 1 * field x (1 * N.of_nat (nxt 32 s)) 1)%N.
Proof.
  intro Hs. assert (F : forall p, field x (1 * p) 1 = (if N.testbit x p then 1 else 0)%N).
  { intro p. unfold field. rewrite N.mul_1_l, <- N.shiftr_div_pow2. change (2 ^ 1)%N with 2%N. rewrite <- N.bit0_mod, N.shiftr_spec by lia. rewrite N.add_0_l. now destruct (N.testbit x p). }
  rewrite !F. unfold around. cbn [number_of_bits]. change (N.of_nat 1) with 1%N. change (N.of_nat 0) with 0%N. rewrite N.add_0_r.
  rewrite (N.mod_small (N.of_nat s)) by lia. replace ((N.of_nat s + 1) mod 32)%N with (N.of_nat (nxt 32 s)).
  - destruct (N.testbit x (N.of_nat s)), (N.testbit x (N.of_nat (nxt 32 s))); reflexivity.
  - unfold nxt. destruct (Nat.eqb_spec (S s) 32).
    + replace (N.of_nat s + 1)%N with 32%N by lia. reflexivity.
    + rewrite N.mod_small by lia. lia.
Qed.
Lemma dword_enc b s : (s < 32)%nat -> dword b s = enc (column b s, column b (nxt 32 s)).
Proof.
  intro Hs. unfold dword, enc, column. cbn [fst snd]. f_equal. induction b as [|x b IH]; [reflexivity|]. cbn [map join]. rewrite around2 by exact Hs. now rewrite IH.
Qed.

(** ** probabilities of a block *)
Definition eqL : forall x y : list N, {x = y} + {x <> y} := list_eq_dec N.eq_dec.
Notation dmissed := (missed eqL (@nil N) 32).
Notation pone := (pmiss eqL letters (@nil N) 32).
Notation ptwo := (pmiss2 eqL letters (@nil N) 32).
Lemma in_letters x : In x letters <-> length x = 10%nat /\ forall y, In y x -> (y < 2)%N.
Proof. unfold letters. rewrite in_matrices. reflexivity. Qed.
Lemma column_in b s : length b = 10%nat -> In (column b s) letters.
Proof.
  intro L. apply in_letters. unfold column. rewrite map_length. split; [exact L|]. intros y Y. apply in_map_iff in Y. destruct Y as (x & <- & _). apply N.mod_lt. discriminate.
Qed.
Lemma dna_missed b x : length b = 10%nat -> In (fst x) letters -> In (snd x) letters ->
  rprod 32 (fun s => other (enc x) (dword b s)) = dmissed x (map (column b) (seq 0 32)).
Proof.
  intros L X1 X2. unfold missed. apply rprod_ext. intros s Hs. rewrite dword_enc by exact Hs. unfold here.
  assert (NT : forall t, (t < 32)%nat -> nth t (map (column b) (seq 0 32)) [] = column b t).
  { intros t T. rewrite nth_indep with (d' := column b 0) by (now rewrite map_length, seq_length). rewrite map_nth, seq_nth by exact T. reflexivity. }
  assert (Hn : (nxt 32 s < 32)%nat) by (unfold nxt; destruct (Nat.eqb_spec (S s) 32); lia).
  rewrite !NT by assumption. unfold other, DnaBlock.delta. destruct x as (a & c). cbn [fst snd] in *.
  pose proof (column_in b s L) as C1. pose proof (column_in b (nxt 32 s) L) as C2.
  destruct (N.eqb_spec (enc (column b s, column b (nxt 32 s))) (enc (a, c))) as [E|E].
  - apply enc_inj in E; try assumption. destruct E as (-> & ->). destruct (eqL a a), (eqL c c); congruence || ring.
  - destruct (eqL a (column b s)) as [->|], (eqL c (column b (nxt 32 s))) as [->|]; congruence || ring.
Qed.
Lemma letters_len : INR (length letters) = 1024.
Proof. unfold letters. rewrite matrices_len. change (IZR (2 ^ Z.of_N 1)) with 2. ring. Qed.
Definition space : R := IZR (2 ^ 32) ^ 10.
Lemma space_ne : space <> 0.
Proof. apply pow_ne, two_ne. lia. Qed.
Lemma space_eq : INR (length letters) ^ 32 = space.
Proof.
  unfold space, letters. rewrite matrices_len. replace (IZR (2 ^ 32)) with (IZR (2 ^ Z.of_N 1) ^ 32).
  - rewrite <- !pow_mult. reflexivity.
  - rewrite pow_IZR. f_equal.
Qed.
Lemma block_one x : In (fst x) letters -> In (snd x) letters ->
  lsumR (matrices 32 10) (fun b => rprod 32 (fun s => other (enc x) (dword b s))) = pone x * space.
Proof.
  intros X1 X2. rewrite (lsumR_ext _ _ (fun b => dmissed x (map (column b) (seq 0 32)))).
  - etransitivity; [exact (columns_sum 10 32 (dmissed x))|]. unfold pmiss, Ex. fold letters. rewrite space_eq. field. apply space_ne.
  - intros b B. rewrite in_matrices in B. apply dna_missed; [apply B|exact X1|exact X2].
Qed.
Lemma block_two x y : In (fst x) letters -> In (snd x) letters -> In (fst y) letters -> In (snd y) letters ->
  lsumR (matrices 32 10) (fun b => rprod 32 (fun s => other (enc x) (dword b s)) * rprod 32 (fun s => other (enc y) (dword b s))) = ptwo x y * space.
Proof.
  intros X1 X2 Y1 Y2. rewrite (lsumR_ext _ _ (fun b => dmissed x (map (column b) (seq 0 32)) * dmissed y (map (column b) (seq 0 32)))).
  - etransitivity; [exact (columns_sum 10 32 (fun c => dmissed x c * dmissed y c))|]. unfold pmiss2, Ex. fold letters. rewrite space_eq. field. apply space_ne.
  - intros b B. rewrite in_matrices in B. destruct B as (L & _). rewrite !dna_missed by assumption. reflexivity.
Qed.

(** ** the whole sequence *)
Definition gone (K : nat) (x : list N * list N) (l : list N) : R := absent (32 * K) (dna_word 32 (drawn l) 11) (enc x).
Lemma gone_blocks K x pre l : length pre = 11%nat -> gone K x (pre ++ l) = rprod K (fun b => rprod 32 (fun s => other (enc x) (dword (blk 10 l b) s))).
Proof.
  intro L. unfold gone, absent. rewrite rprod_blocks. apply rprod_ext. intros b _. apply rprod_ext. intros s Hs. f_equal. unfold dna_word, dword.
  replace (32 * b + s)%nat with (s + b * 32)%nat by lia. rewrite Nat.div_add, Nat.mod_add, Nat.div_small, Nat.mod_small by lia. f_equal. unfold blk. rewrite map_map. apply map_ext.
  intro a. f_equal. unfold drawn. rewrite app_nth2 by lia. f_equal. lia.
Qed.
Definition dna_all (K : nat) : list (list N) := matrices 32 (11 + 10 * K).
Lemma dna_average K Psi F : (forall pre l, length pre = 11%nat -> F (pre ++ l) = rprod K (fun b => Psi (blk 10 l b))) ->
  average (dna_all K) F = (lsumR (matrices 32 10) Psi / space) ^ K.
Proof.
  intro H. unfold average, dna_all. rewrite matrices_app, matrices_len.
  rewrite (lsumR_ext _ _ (fun _ => lsumR (matrices 32 10) Psi ^ K)).
  - rewrite lsumR_const, matrices_len, pow_add, pow_mult. fold space. unfold Rdiv. rewrite Rpow_mult_distr, pow_inv. change (IZR (2 ^ Z.of_N 32)) with (IZR (2 ^ 32)). fold space. field.
    split; [apply pow_ne, space_ne|apply two_ne; lia].
  - intros pre P. rewrite in_matrices in P. destruct P as (L & _). rewrite <- (blocks_sum 32 10 Psi K). apply lsumR_ext. intros l _. now apply H.
Qed.
Lemma gone_one K x : In (fst x) letters -> In (snd x) letters -> average (dna_all K) (gone K x) = pone x ^ K.
Proof.
  intros X1 X2. rewrite (dna_average K (fun b => rprod 32 (fun s => other (enc x) (dword b s)))).
  - rewrite block_one by assumption. f_equal. field. apply space_ne.
  - intros pre l L. now apply gone_blocks.
Qed.
Lemma gone_two K x y : In (fst x) letters -> In (snd x) letters -> In (fst y) letters -> In (snd y) letters ->
  average (dna_all K) (fun l => gone K x l * gone K y l) = ptwo x y ^ K.
Proof.
  intros X1 X2 Y1 Y2. rewrite (dna_average K (fun b => rprod 32 (fun s => other (enc x) (dword b s)) * rprod 32 (fun s => other (enc y) (dword b s)))).
  - rewrite block_two by assumption. f_equal. field. apply space_ne.
  - intros pre l L. rewrite !gone_blocks by exact L. apply (rprod_mul K).
Qed.

(** ** the variance as a sum over pairs of words *)
Definition pairs : list (list N * list N) := flat_map (fun a => map (pair a) letters) letters.
Lemma pairs_sum f : lsumR pairs f = lsumR letters (fun a => lsumR letters (fun b => f (a, b))).
Proof. unfold pairs. rewrite lsumR_flat. apply lsumR_ext. intros a _. apply lsumR_map. Qed.
Lemma in_pairs x : In x pairs <-> In (fst x) letters /\ In (snd x) letters.
Proof.
  unfold pairs. rewrite in_flat_map. destruct x as (a & b). cbn [fst snd]. split.
  - intros (a' & A & M). apply in_map_iff in M. destruct M as (b' & E & B). injection E as <- <-. auto.
  - intros (A & B). exists a. split; [exact A|]. now apply in_map.
Qed.
Definition unseen (K : nat) (l : list N) : R := lsumR pairs (fun x => gone K x l).
Lemma unseen_words K l : lsumR (words 20) (absent (32 * K) (dna_word 32 (drawn l) 11)) = unseen K l.
Proof. rewrite enc_sum. unfold unseen. now rewrite pairs_sum. Qed.
Lemma dna_mean K : average (dna_all K) (unseen K) = lsumR pairs (fun x => pone x ^ K).
Proof.
  unfold average at 1, unseen. rewrite lsumR_swap. unfold Rdiv. rewrite <- lsumR_scale_r. apply lsumR_ext. intros x X. apply in_pairs in X.
  destruct X as (X1 & X2). rewrite <- (gone_one K x X1 X2). reflexivity.
Qed.
Lemma average_square {A : Type} (all : list A) f : INR (length all) <> 0 ->
  average all (fun l => (f l - average all f) ^ 2) = average all (fun l => f l * f l) - average all f * average all f.
Proof.
  intro LN. set (mu := average all f). unfold average. set (k := INR (length all)) in *.
  rewrite (lsumR_ext _ _ (fun l => f l * f l + (- (2 * mu) * f l + mu * mu))) by (intros; ring).
  rewrite !lsumR_plus, lsumR_scale, lsumR_const. fold k. assert (E : lsumR all f = mu * k) by (unfold mu, average; fold k; field; exact LN). rewrite E. field. exact LN.
Qed.
Lemma pair_difference {A : Type} (l : list A) (f : A -> A -> R) (g : A -> R) :
  lsumR l (fun x => lsumR l (fun y => f x y)) - lsumR l g * lsumR l g = lsumR l (fun x => lsumR l (fun y => f x y - g x * g y)).
Proof.
  rewrite (lsumR_ext l (fun x => lsumR l (fun y => f x y - g x * g y)) (fun x => lsumR l (fun y => f x y) + - lsumR l g * g x)).
  - rewrite lsumR_plus, lsumR_scale. ring.
  - intros x _. rewrite (lsumR_ext l _ (fun y => f x y + - g x * g y)) by (intros; ring). rewrite (lsumR_plus l (fun y => f x y) (fun y => - g x * g y)), (lsumR_scale l (- g x) g). f_equal. ring.
Qed.
Lemma dna_variance K : average (dna_all K) (fun l => (unseen K l - average (dna_all K) (unseen K)) ^ 2) =
  lsumR pairs (fun x => lsumR pairs (fun y => ptwo x y ^ K - pone x ^ K * pone y ^ K)).
Proof.
  assert (LN : INR (length (dna_all K)) <> 0) by (unfold dna_all; rewrite matrices_len; apply pow_ne, two_ne; lia).
  set (all := dna_all K) in *. set (k := INR (length all)) in *.
  assert (EM : average all (unseen K) = lsumR pairs (fun x => pone x ^ K)) by exact (dna_mean K).
  assert (ES : average all (fun l => unseen K l * unseen K l) = lsumR pairs (fun x => lsumR pairs (fun y => ptwo x y ^ K))).
  { unfold average. rewrite (lsumR_ext _ _ (fun l => lsumR pairs (fun x => lsumR pairs (fun y => gone K x l * gone K y l)))).
    - rewrite lsumR_swap. unfold Rdiv. rewrite <- lsumR_scale_r. apply lsumR_ext. intros x X. apply in_pairs in X. rewrite lsumR_swap, <- lsumR_scale_r. apply lsumR_ext. intros y Y. apply in_pairs in Y.
      destruct X as (X1 & X2), Y as (Y1 & Y2). rewrite <- (gone_two K x y X1 X2 Y1 Y2). reflexivity.
    - intros l _. unfold unseen. rewrite <- lsumR_scale_r. apply lsumR_ext. intros x _. now rewrite lsumR_scale. }
  set (mu := average all (unseen K)) in *.
  transitivity (average all (fun l => unseen K l * unseen K l) - mu * mu).
  - exact (average_square all (unseen K) LN).
  - rewrite ES, EM. exact (pair_difference pairs (fun x y => ptwo x y ^ K) (fun x => pone x ^ K)).
Qed.
