(** Words of letters and their numbers. *)
From Coq Require Import Lia Lra.
From Verif Require Export BitStatSpec.
From Verif Require Import BaseLemmas OpermReal DnaBlock RunsArcs CrapsLaw CrapsLaw2 VtestLaw WindowLaw.
Open Scope R_scope.

Section Code.
Variable b : N.
Definition alphabet : list N := map N.of_nat (seq 0 (N.to_nat b)).
Lemma in_alphabet y : In y alphabet <-> (y < b)%N.
Proof. unfold alphabet. rewrite in_map_iff. split; [intros (x & <- & X); apply in_seq in X; lia|]. intro H. exists (N.to_nat y). split; [lia|]. apply in_seq. lia. Qed.
Lemma alphabet_nodup : NoDup alphabet.
Proof. apply FinFun.Injective_map_NoDup; [intros x y; apply Nat2N.inj|apply seq_NoDup]. Qed.
Lemma alphabet_length : length alphabet = N.to_nat b.
Proof. unfold alphabet. now rewrite map_length, seq_length. Qed.
Definition code (u : list N) : N := fold_left (fun acc y => acc * b + y)%N u 0%N.
Lemma code_snoc u y : code (u ++ [y]) = (code u * b + y)%N.
Proof. unfold code. now rewrite fold_left_app. Qed.
Lemma code_start u : forall a, fold_left (fun acc y => acc * b + y)%N u a = (a * b ^ N.of_nat (length u) + code u)%N.
Proof.
  unfold code. induction u as [|y u IH]; intro a; cbn [fold_left length]; [cbn; lia|]. rewrite IH, (IH (0 * b + y)%N). rewrite Nat2N.inj_succ, N.pow_succ_r'. ring.
Qed.
Lemma code_cons y u : code (y :: u) = (y * b ^ N.of_nat (length u) + code u)%N.
Proof. unfold code at 1. cbn [fold_left]. rewrite code_start. f_equal. Qed.
Lemma code_lt u : (forall y, In y u -> (y < b)%N) -> (code u < b ^ N.of_nat (length u))%N.
Proof.
  induction u as [|y u IH]; intro H; [cbn; lia|]. rewrite code_cons. cbn [length]. rewrite Nat2N.inj_succ, N.pow_succ_r'.
  specialize (IH (fun y Y => H y (or_intror Y))). pose proof (H y (or_introl eq_refl)). nia.
Qed.
Lemma code_inj u : forall v, length u = length v -> (forall y, In y u -> (y < b)%N) -> (forall y, In y v -> (y < b)%N) -> code u = code v -> u = v.
Proof.
  induction u as [|y u IH]; intros [|z v] E U V C; try discriminate E; [reflexivity|]. injection E as E. rewrite !code_cons, E in C.
  pose proof (code_lt u (fun y Y => U y (or_intror Y))) as A. pose proof (code_lt v (fun y Y => V y (or_intror Y))) as B. rewrite E in A.
  assert (y = z) as -> by nia. f_equal. apply IH; [exact E|intros; apply U; now right|intros; apply V; now right|]. lia.
Qed.
Lemma rsum_rows a c F : rsum (a * c) F = rsum a (fun i => rsum c (fun j => F (i * c + j)%nat)).
Proof.
  induction a as [|a IH]; [reflexivity|]. cbn [rsum]. rewrite <- IH. replace (S a * c)%nat with (a * c + c)%nat by lia. apply rsum_split.
Qed.
Lemma lsumR_seq k F : lsumR (seq 0 k) F = rsum k F.
Proof. induction k as [|k IH]; [reflexivity|]. rewrite seq_S, VtestLaw.lsumR_app, IH. cbn [lsumR rsum Nat.add]. ring. Qed.
Lemma code_sum k : forall F : N -> R, rsum (N.to_nat b ^ k) (fun v => F (N.of_nat v)) = lsumR (tuples alphabet k) (fun u => F (code u)).
Proof.
  induction k as [|k IH]; intro F; [cbn; ring|]. rewrite Nat.pow_succ_r', rsum_rows, tuples_sum. unfold alphabet at 1. rewrite VtestLaw.lsumR_map, lsumR_seq.
  apply rsum_ext. intros i I. rewrite (rsum_ext _ _ (fun j => F (N.of_nat i * b ^ N.of_nat k + N.of_nat j)%N)).
  - rewrite (IH (fun v => F (N.of_nat i * b ^ N.of_nat k + v)%N)). apply lsumR_ext. intros u U. apply in_tuples in U. destruct U as (L & _). now rewrite code_cons, L.
  - intros j J. f_equal. rewrite Nat2N.inj_add, Nat2N.inj_mul, Nat2N.inj_pow, N2Nat.id. reflexivity.
Qed.
Lemma often_sum n word v : how_often n word v = rsum n (fun t => b2r (word t =? N.of_nat v)%N).
Proof.
  unfold how_often. induction n as [|n IH]; [reflexivity|]. rewrite seq_S, filter_app, app_length, plus_INR, IH. cbn [rsum Nat.add filter]. destruct (_ =? _)%N; cbn; ring.
Qed.
End Code.

(** ** the mean of Pearson's statistic over the numbers of the words *)
Section Mean.
Context {W : Type}.
Variable all : list W.
Variable L : nat.
Variable bs : list N.
Variable X : nat -> W -> N.
Variable sigma : nat -> N -> W -> W.
Hypothesis all_ne : all <> [].
Hypothesis bs_ne : bs <> [].
Hypothesis perm : forall p b, (p < L)%nat -> In b bs -> Permutation.Permutation (map (sigma p b) all) all.
Hypothesis other : forall p q b l, (p < L)%nat -> (q < L)%nat -> q <> p -> In b bs -> In l all -> X q (sigma p b l) = X q l.
Hypothesis same : forall p l h, (p < L)%nat -> In l all -> lsumR bs (fun b => h (X p (sigma p b l))) = lsumR bs h.
Hypothesis digit : forall p l, (p < L)%nat -> In l all -> In (X p l) bs.
Variable f : N -> N.
Variable b : N.
Hypothesis letters_in : forall x, In x bs -> (f x < b)%N.
Hypothesis letters_used : forall y, (y < b)%N -> exists x, In x bs /\ f x = y.
Variable n m : nat.
Hypothesis n1 : (1 <= n)%nat.
Variable pos : nat -> nat -> nat.
Hypothesis pos_in : forall i r, (i < n)%nat -> (r < m)%nat -> (pos i r < L)%nat.
Hypothesis pos_inj : forall i r s, (i < n)%nat -> (r < m)%nat -> (s < m)%nat -> pos i r = pos i s -> r = s.
Hypothesis order : forall i j, (i < n)%nat -> (j < n)%nat -> i <> j -> ahead m pos i j \/ ahead m pos j i.
Variable number : W -> nat -> N.
Hypothesis numbers : forall l i, In l all -> (i < n)%nat -> number l i = code b (map (fun r => f (X (pos i r) l)) (seq 0 m)).

Lemma often_occurs l u : In l all -> In u (tuples (alphabet b) m) -> rsum n (fun t => b2r (number l t =? code b u)%N) = occurs X f n m pos u l.
Proof.
  intros Al U. apply in_tuples in U. destruct U as (Lu & U). unfold occurs. apply rsum_ext. intros i I. rewrite numbers by assumption. unfold same_word, word, word_upto.
  destruct (list_eq_dec N.eq_dec _ u) as [<-|NE]; [rewrite N.eqb_refl; reflexivity|]. destruct (N.eqb_spec (code b (map (fun r => f (X (pos i r) l)) (seq 0 m))) (code b u)) as [E|]; [|reflexivity].
  exfalso. apply NE. apply (code_inj b); [now rewrite map_length, seq_length| |intros y Y; apply in_alphabet, U, Y|exact E].
  intros y Y. apply in_map_iff in Y. destruct Y as (r & <- & R). apply in_seq in R. apply letters_in, digit; [apply pos_in; lia|exact Al].
Qed.
Lemma ks_ok : NoDup (alphabet b) /\ (forall x, In x bs -> In (f x) (alphabet b)) /\ (forall y, In y (alphabet b) -> exists x, In x bs /\ f x = y).
Proof.
  split; [apply alphabet_nodup|split].
  - intros x Hx. apply in_alphabet. now apply letters_in.
  - intros y Hy. apply letters_used. now apply in_alphabet.
Qed.
Lemma number_mean (shares : N -> R) : (forall u, In u (tuples (alphabet b) m) -> shares (code b u) = chance bs f u) ->
  average all (fun l => rsum (N.to_nat b ^ m) (fun v => (how_often n (number l) v - INR n * shares (N.of_nat v)) ^ 2 / (INR n * shares (N.of_nat v)))) = INR (N.to_nat b) ^ m - 1.
Proof.
  intro H. destruct ks_ok as (K1 & K2 & K3).
  rewrite <- (alphabet_length b), <- (pearson_words all L bs X sigma all_ne bs_ne perm other same digit f (alphabet b) K1 K2 K3 n m pos pos_in pos_inj order n1).
  apply average_ext. intros l Al.
  transitivity (rsum (N.to_nat b ^ m) (fun v => (fun x : N => (rsum n (fun t => b2r (number l t =? x)%N) - INR n * shares x) ^ 2 / (INR n * shares x)) (N.of_nat v))).
  - rewrite alphabet_length. apply rsum_ext. intros v _. rewrite often_sum. reflexivity.
  - rewrite (code_sum b m (fun x => (rsum n (fun t => b2r (number l t =? x)%N) - INR n * shares x) ^ 2 / (INR n * shares x))). apply lsumR_ext. intros u U. rewrite (often_occurs l u Al U), (H u U). unfold pearson. cbn [fst snd]. f_equal. ring.
Qed.
End Mean.
