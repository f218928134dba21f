(** Overlapping words over independent letters: the mean of the sum of squared
    counts. *)
From Coq Require Import Lia Lra Permutation.
From Verif Require Export OpermStatSpec.
From Verif Require Import BaseLemmas OpermReal DnaBlock RunsArcs CrapsLaw CrapsLaw2 VtestLaw RunsLaw.
Open Scope R_scope.

Lemma average_perm {A} (l m : list A) f : Permutation l m -> average l f = average m f.
Proof. intro P. unfold average. rewrite (lsumR_perm _ _ f P), (Permutation_length P). reflexivity. Qed.
Lemma average_map {A B} (h : A -> B) l f : average (map h l) f = average l (fun x => f (h x)).
Proof. unfold average. rewrite lsumR_map, map_length. reflexivity. Qed.
Lemma average_const {A} (l : list A) x : l <> [] -> average l (fun _ => x) = x.
Proof. intro H. unfold average. rewrite lsumR_const. field. destruct l; [congruence|]. apply Rgt_not_eq, lt_0_INR. cbn. lia. Qed.
Lemma average_swap {A B} (l : list A) (m : list B) f : average l (fun x => average m (f x)) = average m (fun y => average l (fun x => f x y)).
Proof.
  unfold average. unfold Rdiv. rewrite (lsumR_ext l _ (fun x => / INR (length m) * lsumR m (f x))) by (intros; ring).
  rewrite (lsumR_ext m _ (fun y => / INR (length l) * lsumR l (fun x => f x y))) by (intros; ring).
  rewrite !lsumR_scale, lsumR_swap. ring.
Qed.
Lemma average_minus {A} (l : list A) f g : average l (fun x => f x - g x) = average l f - average l g.
Proof. rewrite (average_ext l _ (fun x => f x + -1 * g x)) by (intros; ring). rewrite average_plus, average_scale. ring. Qed.

Section Space.
Context {W : Type}.
(** equally likely outcomes; the digit at each of L positions; the change of one
    digit in every possible way *)
Variable all : list W.
Variable L : nat.
Variable bs : list N.
Variable X : nat -> W -> N.
Variable sigma : nat -> N -> W -> W.
Hypothesis all_ne : all <> [].
Hypothesis bs_ne : bs <> [].
Hypothesis perm : forall p b, (p < L)%nat -> In b bs -> Permutation (map (sigma p b) all) all.
Hypothesis other : forall p q b l, (p < L)%nat -> (q < L)%nat -> q <> p -> In b bs -> In l all -> X q (sigma p b l) = X q l.
Hypothesis same : forall p l h, (p < L)%nat -> In l all -> lsumR bs (fun b => h (X p (sigma p b l))) = lsumR bs h.
Hypothesis digit : forall p l, (p < L)%nat -> In l all -> In (X p l) bs.

Lemma moved p b l : (p < L)%nat -> In b bs -> In l all -> In (sigma p b l) all.
Proof. intros P B I. apply (Permutation_in _ (perm p b P B)). now apply in_map. Qed.
Lemma shift_one p b F : (p < L)%nat -> In b bs -> average all (fun l => F (sigma p b l)) = average all F.
Proof. intros P B. rewrite <- average_map. now apply average_perm, perm. Qed.
Lemma resample p F : (p < L)%nat -> average all F = average all (fun l => average bs (fun b => F (sigma p b l))).
Proof.
  intro P. rewrite average_swap. rewrite (average_ext bs _ (fun _ => average all F)); [symmetry; now apply average_const|].
  intros b B. now apply shift_one.
Qed.
Definition apart (p : nat) (G : W -> R) : Prop := forall b l, In b bs -> In l all -> G (sigma p b l) = G l.
Lemma split_off p G h : (p < L)%nat -> apart p G ->
  average all (fun l => G l * h (X p l)) = average all G * average bs h.
Proof.
  intros P A. rewrite (resample p _ P). rewrite (average_ext all _ (fun l => average bs h * G l)); [rewrite average_scale; ring|].
  intros l I. rewrite (average_ext bs _ (fun b => G l * h (X p (sigma p b l)))) by (intros b B; now rewrite A).
  rewrite average_scale, Rmult_comm. f_equal. unfold average. now rewrite same.
Qed.
(** the same when the factor also looks at what stays *)
Lemma split_off2 p G (h : W -> N -> R) : (p < L)%nat -> apart p G -> (forall x, apart p (fun l => h l x)) ->
  average all (fun l => G l * h l (X p l)) = average all (fun l => G l * average bs (h l)).
Proof.
  intros P A H. rewrite (resample p _ P). apply average_ext. intros l I.
  rewrite (average_ext bs _ (fun b => G l * h l (X p (sigma p b l)))) by (intros b B; rewrite A by assumption; f_equal; now apply H).
  rewrite average_scale. f_equal. unfold average. now rewrite (same p l (h l)).
Qed.

(** ** letters *)
Variable f : N -> N.
Variable ks : list N.
Hypothesis ks_nodup : NoDup ks.
Hypothesis ks_letters : forall b, In b bs -> In (f b) ks.
Hypothesis ks_used : forall y, In y ks -> exists b, In b bs /\ f b = y.
Definition share (y : N) : R := average bs (fun b => b2r (f b =? y)%N).
Lemma share_pos y : In y ks -> 0 < share y.
Proof.
  intro K. destruct (ks_used y K) as (b & B & E). unfold share, average. apply Rdiv_lt_0_compat.
  - clear -B E. induction bs as [|a l IH]; [destruct B|]. cbn [lsumR]. assert (N0 : forall l : list N, 0 <= lsumR l (fun b => b2r (f b =? y)%N)).
    { induction l0 as [|x l0 I0]; cbn [lsumR]; [lra|]. unfold b2r at 1. destruct (_ =? _)%N; lra. }
    destruct B as [->|B].
    + rewrite E, N.eqb_refl. specialize (N0 l). unfold b2r at 1. lra.
    + specialize (IH B). unfold b2r at 1. destruct (_ =? _)%N; lra.
  - apply lt_0_INR. destruct bs; [congruence|]. cbn. lia.
Qed.
Lemma pick_one y : In y ks -> average bs (fun x => b2r (y =? f x)%N / share (f x)) = 1.
Proof.
  intro K. rewrite (average_ext bs _ (fun x => / share y * b2r (f x =? y)%N)).
  - rewrite average_scale. fold (share y). apply Rinv_l. pose proof (share_pos y K). lra.
  - intros x _. rewrite N.eqb_sym. destruct (N.eqb_spec (f x) y) as [->|]; unfold b2r, Rdiv; ring.
Qed.
Lemma one_letter (l : list N) y (h : N -> R) : NoDup l -> In y l -> lsumR l (fun z => b2r (y =? z)%N * h z) = h y.
Proof.
  intros D I. induction D as [|a l N D IH]; [destruct I|]. cbn [lsumR]. destruct (N.eqb_spec y a) as [->|NE].
  - rewrite (lsumR_ext l _ (fun _ => 0)); [rewrite lsumR_const; unfold b2r; ring|]. intros z Z. destruct (N.eqb_spec a z) as [->|]; [contradiction|]. unfold b2r. ring.
  - destruct I as [->|I]; [congruence|]. rewrite IH by exact I. unfold b2r. ring.
Qed.
Lemma all_letters : average bs (fun x => / share (f x)) = INR (length ks).
Proof.
  rewrite (average_ext bs _ (fun x => lsumR ks (fun y => b2r (f x =? y)%N * / share y))).
  - rewrite average_lsumR. rewrite (lsumR_ext ks _ (fun _ => 1)); [rewrite lsumR_const; ring|]. intros y K.
    rewrite (average_ext bs _ (fun x => / share y * b2r (f x =? y)%N)) by (intros; ring). rewrite average_scale. fold (share y).
    apply Rinv_l. pose proof (share_pos y K). lra.
  - intros x B. symmetry. apply (one_letter ks (f x) (fun y => / share y)); [exact ks_nodup|now apply ks_letters].
Qed.
Lemma shares_one : lsumR ks share = 1.
Proof.
  unfold share. rewrite <- (average_lsumR bs ks (fun b y => b2r (f b =? y)%N)). rewrite (average_ext bs _ (fun _ => 1)); [now apply average_const|].
  intros b B. rewrite (lsumR_ext ks _ (fun z => b2r (f b =? z)%N * 1)) by (intros; ring). now apply (one_letter ks (f b) (fun _ => 1)); [exact ks_nodup|apply ks_letters].
Qed.

(** ** words *)
Variable n m : nat.
Variable pos : nat -> nat -> nat.
Hypothesis pos_in : forall i r, (i < n)%nat -> (r < m)%nat -> (pos i r < L)%nat.
Hypothesis pos_inj : forall i r s, (i < n)%nat -> (r < m)%nat -> (s < m)%nat -> pos i r = pos i s -> r = s.
(** every letter of window j comes after the letters of window i up to it *)
Definition ahead (i j : nat) : Prop := forall r s, (s <= r < m)%nat -> pos j r <> pos i s.
Hypothesis order : forall i j, (i < n)%nat -> (j < n)%nat -> i <> j -> ahead i j \/ ahead j i.

Definition word_upto (k i : nat) (l : W) : list N := map (fun r => f (X (pos i r) l)) (seq 0 k).
Definition word (i : nat) (l : W) : list N := word_upto m i l.
Definition same_word (u v : list N) : R := if list_eq_dec N.eq_dec u v then 1 else 0.
Definition chance (u : list N) : R := fold_right Rmult 1 (map share u).

Lemma chance_snoc u y : chance (u ++ [y]) = chance u * share y.
Proof. unfold chance. rewrite map_app, fold_right_app. cbn. induction u as [|x u IH]; cbn; [ring|]. rewrite IH. ring. Qed.
Lemma same_snoc u v x y : same_word (u ++ [x]) (v ++ [y]) = same_word u v * b2r (x =? y)%N.
Proof.
  unfold same_word. destruct (list_eq_dec N.eq_dec (u ++ [x]) (v ++ [y])) as [E|E].
  - apply app_inj_tail in E. destruct E as (-> & ->). destruct (list_eq_dec N.eq_dec v v); [|congruence]. rewrite N.eqb_refl. unfold b2r. ring.
  - destruct (list_eq_dec N.eq_dec u v) as [->|]; [|ring]. destruct (N.eqb_spec x y) as [->|]; [congruence|]. unfold b2r. ring.
Qed.
Lemma upto_S k i l : word_upto (S k) i l = word_upto k i l ++ [f (X (pos i k) l)].
Proof. unfold word_upto. rewrite seq_S, map_app. reflexivity. Qed.
Lemma upto_apart p k i b l : (p < L)%nat -> (i < n)%nat -> (k <= m)%nat -> (forall r, (r < k)%nat -> pos i r <> p) -> In b bs -> In l all ->
  word_upto k i (sigma p b l) = word_upto k i l.
Proof.
  intros P I K H B A. unfold word_upto. apply map_ext_in. intros r R. apply in_seq in R. f_equal. apply other; try assumption.
  - apply pos_in; [exact I|lia].
  - apply H. lia.
Qed.
Lemma letter_in p l : (p < L)%nat -> In l all -> In (f (X p l)) ks.
Proof. intros P I. apply ks_letters. now apply digit. Qed.

Lemma meets i j : (i < n)%nat -> (j < n)%nat -> ahead i j -> average all (fun l => same_word (word i l) (word j l) / chance (word j l)) = 1.
Proof.
  intros I J A. unfold word. assert (G : forall k, (k <= m)%nat -> average all (fun l => same_word (word_upto k i l) (word_upto k j l) / chance (word_upto k j l)) = 1); [|now apply G].
  induction k as [|k IH]; intro K.
  - rewrite (average_ext all _ (fun _ => 1)); [now apply average_const|]. intros l _. unfold word_upto, same_word, chance. cbn. field.
  - rewrite <- (IH ltac:(lia)). set (p := pos j k). assert (P : (p < L)%nat) by (apply pos_in; lia).
    transitivity (average all (fun l => same_word (word_upto k i l) (word_upto k j l) / chance (word_upto k j l) * (fun l x => b2r (f (X (pos i k) l) =? f x)%N / share (f x)) l (X p l))).
    { apply average_ext. intros l Al. rewrite !upto_S, same_snoc, chance_snoc. fold p. unfold Rdiv. rewrite Rinv_mult. ring. }
    assert (Pi : forall r, (r < S k)%nat -> pos i r <> p). { intros r R E. apply (A k r); [lia|]. symmetry. exact E. }
    assert (Pj : forall r, (r < k)%nat -> pos j r <> p). { intros r R E. apply pos_inj in E; lia. }
    etransitivity; [apply (split_off2 p (fun l => same_word (word_upto k i l) (word_upto k j l) / chance (word_upto k j l)) (fun l x => b2r (f (X (pos i k) l) =? f x)%N / share (f x)) P)|].
    + intros b l B Al. rewrite !upto_apart by (assumption || lia || (intros; apply Pi; lia)). reflexivity.
    + intros x b l B Al. rewrite other; [reflexivity|exact P|apply pos_in; lia|apply Pi; lia|exact B|exact Al].
    + apply average_ext. intros l Al. rewrite pick_one; [ring|]. apply letter_in; [apply pos_in; lia|exact Al].
Qed.
Lemma alone i : (i < n)%nat -> average all (fun l => / chance (word i l)) = INR (length ks) ^ m.
Proof.
  intro I. unfold word. assert (G : forall k, (k <= m)%nat -> average all (fun l => / chance (word_upto k i l)) = INR (length ks) ^ k); [|now apply G].
  induction k as [|k IH]; intro K.
  - rewrite (average_ext all _ (fun _ => 1)); [now apply average_const|]. intros l _. unfold word_upto, chance. cbn. field.
  - set (p := pos i k). assert (P : (p < L)%nat) by (apply pos_in; lia).
    rewrite (average_ext all _ (fun l => / chance (word_upto k i l) * (fun x => / share (f x)) (X p l))).
    2: { intros l _. rewrite upto_S, chance_snoc, Rinv_mult. reflexivity. }
    etransitivity; [apply (split_off p (fun l => / chance (word_upto k i l)) (fun x => / share (f x)) P)|].
    + intros b l B Al. rewrite upto_apart; [reflexivity|exact P|exact I|lia| |exact B|exact Al]. intros r R E. apply pos_inj in E; lia.
    + rewrite IH by lia. rewrite all_letters. cbn [pow]. ring.
Qed.
Lemma word_in i l : (i < n)%nat -> In l all -> In (word i l) (tuples ks m).
Proof.
  intros I Al. apply in_tuples. unfold word, word_upto. rewrite map_length, seq_length. split; [reflexivity|]. intros x Hx. apply in_map_iff in Hx. destruct Hx as (r & <- & R). apply in_seq in R.
  apply letter_in; [apply pos_in; lia|exact Al].
Qed.
Lemma same_word_sym u v : same_word u v = same_word v u.
Proof. unfold same_word. destruct (list_eq_dec _ u v), (list_eq_dec _ v u); congruence. Qed.
Lemma pair_mean i j : (i < n)%nat -> (j < n)%nat ->
  average all (fun l => same_word (word i l) (word j l) / chance (word j l)) = if (i =? j)%nat then INR (length ks) ^ m else 1.
Proof.
  intros I J. destruct (Nat.eqb_spec i j) as [->|NE].
  - rewrite <- (alone j J). apply average_ext. intros l _. unfold same_word. destruct (list_eq_dec _ _ _); [|congruence]. unfold Rdiv. ring.
  - destruct (order i j I J NE) as [A|A]; [now apply meets|]. rewrite <- (meets j i J I A). apply average_ext. intros l _. rewrite same_word_sym.
    unfold same_word. destruct (list_eq_dec _ _ _) as [->|]; [reflexivity|]. unfold Rdiv. ring.
Qed.
Definition occurs (u : list N) (l : W) : R := rsum n (fun i => same_word (word i l) u).
Lemma one_word (T : list (list N)) v (h : list N -> R) : NoDup T -> In v T -> lsumR T (fun u => same_word v u * h u) = h v.
Proof.
  intros D I. induction D as [|a l N D IH]; [destruct I|]. cbn [lsumR]. unfold same_word at 1. destruct (list_eq_dec N.eq_dec v a) as [->|NE].
  - rewrite (lsumR_ext l _ (fun _ => 0)); [rewrite lsumR_const; ring|]. intros z Z. unfold same_word. destruct (list_eq_dec _ a z) as [->|]; [contradiction|]. ring.
  - destruct I as [->|I]; [congruence|]. rewrite IH by exact I. ring.
Qed.
Lemma rsum_lsumR {A} k (l : list A) g : lsumR l (fun x => rsum k (fun i => g i x)) = rsum k (fun i => lsumR l (g i)).
Proof. induction k as [|k IH]; cbn [rsum]; [rewrite lsumR_const; ring|]. rewrite lsumR_plus, IH. reflexivity. Qed.
Lemma rsum_prod a b g h : rsum a g * rsum b h = rsum a (fun i => rsum b (fun j => g i * h j)).
Proof. rewrite Rmult_comm, rsum_scale. apply rsum_ext. intros i _. rewrite Rmult_comm. apply rsum_scale. Qed.
Theorem squares_mean : average all (fun l => lsumR (tuples ks m) (fun u => occurs u l * occurs u l / chance u)) = INR n * INR (length ks) ^ m + INR n * (INR n - 1).
Proof.
  rewrite (average_ext all _ (fun l => rsum n (fun i => rsum n (fun j => same_word (word i l) (word j l) / chance (word j l))))).
  - rewrite average_rsum. rewrite (rsum_ext n _ (fun i => INR (length ks) ^ m + (INR n - 1))).
    { rewrite rsum_const. ring. }
    intros i I. rewrite (average_rsum all n (fun l j => same_word (word i l) (word j l) / chance (word j l))).
    rewrite (rsum_ext n _ (fun j => 1 + (if (i =? j)%nat then INR (length ks) ^ m - 1 else 0))).
    2: { intros j J. rewrite pair_mean by assumption. destruct (i =? j)%nat; ring. }
    rewrite <- rsum_plus, rsum_const. assert (S1 : forall c k, rsum k (fun j => if (i =? j)%nat then c else 0) = if (i <? k)%nat then c else 0).
    { intros c. induction k as [|k IH]; [reflexivity|]. cbn [rsum]. rewrite IH. destruct (Nat.ltb_spec i k), (Nat.eqb_spec i k), (Nat.ltb_spec i (S k)); lia || ring. }
    rewrite S1. rewrite (proj2 (Nat.ltb_lt i n) I). ring.
  - intros l Al. unfold occurs.
    rewrite (lsumR_ext _ _ (fun u => rsum n (fun i => rsum n (fun j => same_word (word j l) u * (same_word (word i l) u / chance u))))).
    + rewrite (rsum_lsumR n (tuples ks m)). apply rsum_ext. intros i I. rewrite (rsum_lsumR n (tuples ks m)). apply rsum_ext. intros j J.
      rewrite (one_word (tuples ks m) (word j l) (fun u => same_word (word i l) u / chance u)); [reflexivity|now apply tuples_nodup|now apply word_in].
    + intros u _. rewrite rsum_prod. unfold Rdiv at 1. rewrite Rmult_comm, rsum_scale. apply rsum_ext. intros i _. rewrite rsum_scale. apply rsum_ext. intros j _. unfold Rdiv. ring.
Qed.
Lemma chances_one k : lsumR (tuples ks k) chance = 1.
Proof.
  induction k as [|k IH]; [unfold chance; cbn; ring|]. rewrite tuples_sum. rewrite (lsumR_ext ks _ (fun y => 1 * share y)); [rewrite lsumR_scale, shares_one; ring|].
  intros y _. rewrite (lsumR_ext _ _ (fun u => share y * chance u)) by (intros; reflexivity). rewrite lsumR_scale, IH. ring.
Qed.
Lemma occurs_all l : In l all -> lsumR (tuples ks m) (fun u => occurs u l) = INR n.
Proof.
  intro Al. unfold occurs. rewrite rsum_lsumR. rewrite (rsum_ext n _ (fun _ => 1)); [rewrite rsum_const; ring|]. intros i I.
  rewrite (lsumR_ext _ _ (fun u => same_word (word i l) u * 1)) by (intros; ring). now apply (one_word _ (word i l) (fun _ => 1)); [apply tuples_nodup|apply word_in].
Qed.
Lemma chance_pos u : In u (tuples ks m) -> 0 < chance u.
Proof.
  intro I. apply in_tuples in I. destruct I as (_ & H). unfold chance. induction u as [|y u IH]; cbn; [lra|]. apply Rmult_lt_0_compat; [apply share_pos, H; now left|apply IH; intros; apply H; now right].
Qed.
(** the mean of Pearson's statistic of all words *)
Theorem pearson_words : (1 <= n)%nat ->
  average all (fun l => lsumR (tuples ks m) (fun u => pearson (occurs u l, INR n * chance u))) = INR (length ks) ^ m - 1.
Proof.
  intro N1. assert (Q : 0 < INR n) by (apply lt_0_INR; lia).
  rewrite (average_ext all _ (fun l => / INR n * lsumR (tuples ks m) (fun u => occurs u l * occurs u l / chance u) - INR n)).
  - rewrite average_minus, average_scale, squares_mean, average_const by exact all_ne. field. lra.
  - intros l Al. rewrite (lsumR_ext _ _ (fun u => / INR n * (occurs u l * occurs u l / chance u) + (-2 * occurs u l + INR n * chance u))).
    + rewrite lsumR_plus, lsumR_scale, lsumR_plus, !lsumR_scale, chances_one, occurs_all by exact Al. ring.
    + intros u U. unfold pearson. cbn [fst snd]. pose proof (chance_pos u U). field. lra.
Qed.
End Space.
