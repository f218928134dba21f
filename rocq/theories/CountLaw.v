(** The mean of the statistic of the count-the-1s tests. *)
From Coq Require Import Lia Lra.
From Verif Require Export BitStatSpec BitStatModel.
From Verif Require Import BaseLemmas BitsLemmas TallyLemmas OpermReal DnaBlock RunsArcs CrapsLaw CrapsLaw2 VtestArithLemmas VtestLaw RankLawLemmas MissingLaw WindowLaw WordDigits WordCode.
Open Scope R_scope.

(** ** shares *)
Lemma filter_b2r {A} (f : A -> bool) l : INR (length (filter f l)) = lsumR l (fun x => b2r (f x)).
Proof. induction l as [|x l IH]; [reflexivity|]. cbn [filter lsumR]. destruct (f x); cbn [length]; rewrite <- IH, ?S_INR; unfold b2r; ring. Qed.
Lemma share_letter y : share (words (N.of_nat 8)) letter y = letter_share y.
Proof.
  unfold share, letter_share, average, words. rewrite map_length, seq_length, VtestLaw.lsumR_map, filter_b2r.
  change (N.to_nat (2 ^ N.of_nat 8)) with 256%nat. replace (INR 256) with 256 by (rewrite INR_IZR_INZ; reflexivity). reflexivity.
Qed.
Lemma chance_share u : chance (words (N.of_nat 8)) letter u = word_share (length u) (code 5 u) \/ exists y, In y u /\ ~ (y < 5)%N.
Proof.
  induction u as [|y u IH] using rev_ind; [left; reflexivity|].
  destruct IH as [IH|(z & Z & H)]; [|right; exists z; split; [apply in_or_app; now left|exact H]].
  destruct (N.lt_ge_cases y 5) as [Y|Y]; [|right; exists y; split; [apply in_or_app; right; now left|lia]].
  left. rewrite chance_snoc, IH, share_letter, code_snoc, app_length, Nat.add_1_r. cbn [word_share].
  replace ((code 5 u * 5 + y) mod 5)%N with y by (symmetry; rewrite N.add_comm, N.mod_add by discriminate; now apply N.mod_small).
  replace ((code 5 u * 5 + y) / 5)%N with (code 5 u) by (symmetry; rewrite N.div_add_l by discriminate; rewrite (N.div_small y) by exact Y; lia). ring.
Qed.
Lemma shares_ok m u : In u (tuples (alphabet 5) m) -> word_share m (code 5 u) = chance (words (N.of_nat 8)) letter u.
Proof.
  intro U. apply in_tuples in U. destruct U as (<- & U). destruct (chance_share u) as [E|(y & Y & H)]; [now rewrite E|]. exfalso. apply H. apply in_alphabet, U, Y.
Qed.
Lemma letter_bound x : (letter x < 5)%N.
Proof.
  unfold letter. assert (O : (ones 8 x <= 8)%N). { assert (G : forall n, (ones n x <= N.of_nat n)%N) by (induction n as [|n IH]; cbn [ones]; [lia|]; destruct (N.testbit _ _); lia). apply (G 8%nat). }
  destruct (N.leb_spec (ones 8 x) 2); [lia|]. destruct (N.leb_spec 6 (ones 8 x)); lia.
Qed.
Lemma letter_used y : (y < 5)%N -> exists x, In x (words (N.of_nat 8)) /\ letter x = y.
Proof.
  intro Y. assert (D : y = 0%N \/ y = 1%N \/ y = 2%N \/ y = 3%N \/ y = 4%N) by lia.
  destruct D as [->|[->|[->|[->| ->]]]]; [exists 0%N|exists 7%N|exists 15%N|exists 31%N|exists 255%N]; (split; [apply in_words; reflexivity|reflexivity]).
Qed.
Lemma field_bits x o : field x o 8 = number_of_bits (fun j => N.testbit x (o + j)) 8.
Proof.
  unfold field. apply N.bits_inj. intro i. rewrite testbit_mod, testbit_number_of_bits. change (N.of_nat 8) with 8%N. f_equal.
  rewrite <- N.shiftr_div_pow2, N.shiftr_spec'. f_equal. lia.
Qed.

(** ** means of Pearson's statistic of words of letters of digits *)
Definition places w (M L k : nat) (idx : nat -> nat) (loc : nat -> N -> N) : Prop :=
  (forall p, (p < L)%nat -> (idx p < M)%nat) /\
  (forall p j, (p < L)%nat -> (j < N.of_nat k)%N -> (loc p j < w)%N) /\
  (forall p q i j, (p < L)%nat -> (q < L)%nat -> (i < N.of_nat k)%N -> (j < N.of_nat k)%N -> idx p = idx q -> loc p i = loc q j -> p = q /\ i = j).
Lemma digits_mean w M L k idx loc f b n m pos number shares : places w M L k idx loc ->
  (forall x, In x (words (N.of_nat k)) -> (f x < b)%N) -> (forall y, (y < b)%N -> exists x, In x (words (N.of_nat k)) /\ f x = y) -> (1 <= n)%nat ->
  (forall i r, (i < n)%nat -> (r < m)%nat -> (pos i r < L)%nat) ->
  (forall i r s, (i < n)%nat -> (r < m)%nat -> (s < m)%nat -> pos i r = pos i s -> r = s) ->
  (forall i j, (i < n)%nat -> (j < n)%nat -> i <> j -> ahead m pos i j \/ ahead m pos j i) ->
  (forall l i, In l (matrices w M) -> (i < n)%nat -> number l i = code b (map (fun r => f (digit_at k idx loc (pos i r) l)) (seq 0 m))) ->
  (forall u, In u (tuples (alphabet b) m) -> shares (code b u) = chance (words (N.of_nat k)) f u) ->
  average (matrices w M) (fun l => rsum (N.to_nat b ^ m) (fun v => (how_often n (number l) v - INR n * shares (N.of_nat v)) ^ 2 / (INR n * shares (N.of_nat v))))
    = INR (N.to_nat b) ^ m - 1.
Proof.
  intros (P1 & P2 & P3). intros. eapply number_mean; eauto using d_ne, b_ne, d_perm, d_other, d_same, d_digit.
Qed.
Lemma seq_map s m : seq s m = map (fun r => (s + r)%nat) (seq 0 m).
Proof. apply nth_ext with (d := 0%nat) (d' := (s + 0)%nat); [now rewrite map_length, !seq_length|]. intros i I. rewrite seq_length in I. rewrite (map_nth (fun r => (s + r)%nat)), !seq_nth by exact I. lia. Qed.
Lemma base5_code u : base5 u = code 5 u.
Proof. reflexivity. Qed.
Lemma letters_mean w M L idx loc n m pos number : places w M L 8 idx loc -> (1 <= n)%nat ->
  (forall i r, (i < n)%nat -> (r < m)%nat -> (pos i r < L)%nat) ->
  (forall i r s, (i < n)%nat -> (r < m)%nat -> (s < m)%nat -> pos i r = pos i s -> r = s) ->
  (forall i j, (i < n)%nat -> (j < n)%nat -> i <> j -> ahead m pos i j \/ ahead m pos j i) ->
  (forall l i, In l (matrices w M) -> (i < n)%nat -> number l i = base5 (map (fun r => letter (digit_at 8 idx loc (pos i r) l)) (seq 0 m))) ->
  average (matrices w M) (fun l => words_chisq m n (number l)) = 5 ^ m - 1.
Proof.
  intros P n1 Q1 Q2 Q3 Q4. unfold words_chisq.
  pose proof (digits_mean w M L 8 idx loc letter 5 n m pos number (word_share m) P (fun x _ => letter_bound x) letter_used n1 Q1 Q2 Q3 Q4 (shares_ok m)) as Q.
  change (N.to_nat 5) with 5%nat in Q. rewrite Q. f_equal. f_equal. rewrite INR_IZR_INZ. reflexivity.
Qed.

(** ** the stream test *)
Definition s_idx (p : nat) : nat := (p / 4)%nat.
Definition s_loc (p : nat) (j : N) : N := (8 * N.of_nat (p mod 4) + j)%N.
Lemma s_places M p q i j : (p < 4 * M)%nat -> (q < 4 * M)%nat -> (i < N.of_nat 8)%N -> (j < N.of_nat 8)%N -> s_idx p = s_idx q -> s_loc p i = s_loc q j -> p = q /\ i = j.
Proof.
  unfold s_idx, s_loc. intros P Q I J E F. change (N.of_nat 8) with 8%N in *. pose proof (Nat.div_mod p 4). pose proof (Nat.div_mod q 4). lia.
Qed.
Lemma s_letter l p : stream_letter (drawn l) 0 p = letter (digit_at 8 s_idx s_loc p l).
Proof. unfold stream_letter, digit_at, digit_of, drawn. rewrite field_bits. reflexivity. Qed.

Lemma s_ok M : places 32 M (4 * M) 8 s_idx s_loc.
Proof.
  split; [|split].
  - intros p P. unfold s_idx. apply Nat.div_lt_upper_bound; lia.
  - intros p j P J. unfold s_loc. change (N.of_nat 8) with 8%N in J. pose proof (Nat.mod_upper_bound p 4). lia.
  - intros p q i j. apply s_places.
Qed.
Lemma stream_mean n M m s word : (1 <= n)%nat -> (n + 4 <= 4 * M)%nat -> (s + m = 5)%nat -> (forall l t, word l t = base5 (map (stream_letter (drawn l) 0) (seq (s + t) m))) ->
  average (matrices 32 M) (fun l => words_chisq m n (word l)) = 5 ^ m - 1.
Proof.
  intros N1 NM SM HW. apply (letters_mean 32 M (4 * M) s_idx s_loc n m (fun t r => (s + t + r)%nat) word (s_ok M) N1); [intros; lia|intros; lia| |].
  - intros i j I J NE. unfold ahead. destruct (Nat.lt_ge_cases i j); [left|right]; intros; lia.
  - intros l t Hl T. rewrite HW, (seq_map (s + t)), map_map. f_equal. apply map_ext. intro r. apply s_letter.
Qed.

(** ** the byte test *)
Definition b_idx (p : nat) : nat := p.
Definition b_loc (p : nat) (j : N) : N := ((N.of_nat ((p / 5) mod 32) + j) mod 32)%N.
Lemma b_ok M : places 32 M M 8 b_idx b_loc.
Proof.
  split; [|split].
  - intros p P. exact P.
  - intros p j _ _. unfold b_loc. apply N.mod_upper_bound. discriminate.
  - intros p q i j P Q I J E F. unfold b_idx in E. subst q. split; [reflexivity|]. unfold b_loc in F. change (N.of_nat 8) with 8%N in *.
    pose proof (N.mod_upper_bound (N.of_nat ((p / 5) mod 32) + i) 32). pose proof (N.mod_upper_bound (N.of_nat ((p / 5) mod 32) + j) 32).
    pose proof (N.div_mod (N.of_nat ((p / 5) mod 32) + i) 32). pose proof (N.div_mod (N.of_nat ((p / 5) mod 32) + j) 32). lia.
Qed.
Lemma b_letter l t i : (i < 5)%nat -> byte_letter (drawn l) 0 t i = letter (digit_at 8 b_idx b_loc (5 * t + i) l).
Proof.
  intro I. unfold byte_letter, digit_at, digit_of, drawn, around, b_idx, b_loc. f_equal. replace ((5 * t + i) / 5)%nat with t.
  2: { rewrite Nat.mul_comm, Nat.div_add_l by lia. rewrite (Nat.div_small i 5) by exact I. lia. }
  reflexivity.
Qed.
Lemma byte_mean n M m s word : (1 <= n)%nat -> (5 * n <= M)%nat -> (s + m = 5)%nat -> (forall l t, word l t = base5 (map (byte_letter (drawn l) 0 t) (seq s m))) ->
  average (matrices 32 M) (fun l => words_chisq m n (word l)) = 5 ^ m - 1.
Proof.
  intros N1 NM SM HW. apply (letters_mean 32 M M b_idx b_loc n m (fun t r => (5 * t + (s + r))%nat) word (b_ok M) N1); [intros; lia|intros; lia| |].
  - intros i j I J NE. unfold ahead. left. intros. lia.
  - intros l t Hl T. rewrite HW, (seq_map s), map_map. f_equal. apply map_ext_in. intros r R. apply in_seq in R. apply b_letter. lia.
Qed.
