(** Theorems C69-C72: byte distribution, permutations, persistent bits, lagged
    sums. *)
From Coq Require Import Permutation Sorted.
From Verif Require Import BaseLemmas TallyLemmas MissingLemmas WordSpec RgbModel.
Open Scope N_scope.

(** ** C69: the byte-distribution table *)

(** The three bytes of a word: lowest, middle, highest. *)
Definition byte_offset (w : N) (j : nat) : N := match j with 0%nat => 0 | 1%nat => (w - 8) / 2 | _ => w - 8 end.
(** Cell of byte j of word i of sample t. *)
Definition byte_cell (g : nat -> N) (w : N) (c t i j : nat) : Z :=
  Z.of_N (field (g (c + 3 * t + i)%nat) (byte_offset w j) 8 * 9 + N.of_nat i * 3 + N.of_nat j).
Definition sample_cells (g : nat -> N) (w : N) (c t : nat) : list Z :=
  flat_map (fun i => map (byte_cell g w c t i) (seq 0 3)) (seq 0 3).

Lemma land_ff : forall x, N.land x 0xff = x mod 2 ^ 8.
Proof. intro x. change 0xff with (N.ones 8). apply N.land_ones. Qed.

Lemma byte_step_ok : forall w i j word cur counts l a, i < 3 -> j < 3 ->
  (mul32 (j + 1) (sub32 w 8) / (3 - 1)) mod 256 = a -> cur <= a -> a - cur < 32 ->
  length counts = (256 * 9)%nat -> tallies counts l ->
  exists counts', byte_step w i (j, word, cur, counts) = Ok (j + 1, N.shiftr word (a - cur), (cur + a) mod 256, counts') /\
    length counts' = (256 * 9)%nat /\ tallies counts' (l ++ [Z.of_N (word mod 2 ^ 8 * 9 + i * 3 + j)]).
Proof.
  intros w i j word cur counts l a I J A C D L T. unfold byte_step. rewrite A. clear A.
  rewrite (proj2 (N.ltb_ge a cur)) by exact C. rewrite (proj2 (N.leb_gt 32 (a - cur))) by exact D. cbn [orb]. rewrite land_ff.
  assert (FB : word mod 2 ^ 8 < 256) by (apply N.mod_lt; discriminate).
  generalize dependent (word mod 2 ^ 8). intros v FB.
  destruct (tallies_bump counts l (Z.of_N (v * 9 + i * 3 + j)) T) as (c1 & F1 & L1 & T1).
  { rewrite L. clear - FB I J. lia. }
  rewrite F1. cbn [bind]. exists c1. split; [reflexivity|]. split; [congruence|exact T1].
Qed.
Lemma half_le : forall d, d / 2 <= d.
Proof. intro. apply N.div_le_upper_bound; lia. Qed.
Lemma amounts : forall w, 8 <= w -> w <= 32 ->
  (mul32 (0 + 1) (sub32 w 8) / (3 - 1)) mod 256 = (w - 8) / 2 /\
  (mul32 (1 + 1) (sub32 w 8) / (3 - 1)) mod 256 = w - 8 /\
  (mul32 (2 + 1) (sub32 w 8) / (3 - 1)) mod 256 = (w - 8) / 2 + (w - 8).
Proof.
  intros w W8 W32.
  assert (S8 : sub32 w 8 = w - 8) by (apply sub32_small; [exact W8|]; eapply N.le_lt_trans; [exact W32|reflexivity]).
  rewrite S8. assert (D : w - 8 <= 24) by lia. clear S8 W8 W32. generalize dependent (w - 8). clear w. intros d D.
  change (3 - 1) with 2. unfold mul32. rewrite !w32_small by (change (2 ^ 32) with 4294967296; lia).
  pose proof (half_le d). split; [|split].
  - rewrite N.add_0_l, N.mul_1_l. apply N.mod_small. lia.
  - change (1 + 1) with 2. rewrite N.mul_comm, N.div_mul by discriminate. apply N.mod_small. lia.
  - change (2 + 1) with 3. replace (3 * d) with (d + d * 2) by lia. rewrite N.div_add by discriminate. apply N.mod_small. lia.
Qed.
Lemma word_ok : forall (g : nat -> N) w i counts l c, 8 <= w -> w <= 32 -> i < 3 -> length counts = (256 * 9)%nat -> tallies counts l ->
  exists j word current counts', iter_o 3 (byte_step w i) (0, g c, 0, counts) = Ok (j, word, current, counts') /\
    length counts' = (256 * 9)%nat /\
    tallies counts' (l ++ map (fun j => Z.of_N (field (g c) (byte_offset w j) 8 * 9 + i * 3 + N.of_nat j)) (seq 0 3)).
Proof.
  intros g w i counts l c W8 W32 I L T. destruct (amounts w W8 W32) as (A0 & A1 & A2).
  assert (HH : (w - 8) / 2 <= w - 8) by apply half_le. assert (D24 : w - 8 <= 24) by (clear - W32; lia).
  set (h := (w - 8) / 2) in *. set (d := w - 8) in *.
  change 3%nat with (S (S (S O))). cbn [iter_o].
  destruct (byte_step_ok w i 0 (g c) 0 counts l h I ltac:(reflexivity) A0 ltac:(apply N.le_0_l) ltac:(clear - HH D24; lia) L T) as (c1 & F1 & L1 & T1).
  rewrite F1. cbn [bind].
  assert (C1 : (0 + h) mod 256 = h) by (rewrite N.add_0_l; apply N.mod_small; clear - HH D24; lia). rewrite C1, N.sub_0_r.
  change (0 + 1) with 1.
  destruct (byte_step_ok w i 1 (N.shiftr (g c) h) h c1 _ d I ltac:(reflexivity) A1 HH ltac:(clear - HH D24; lia) L1 T1) as (c2 & F2 & L2 & T2).
  rewrite F2. cbn [bind].
  assert (C2 : (h + d) mod 256 = h + d) by (apply N.mod_small; clear - HH D24; lia). rewrite C2. change (1 + 1) with 2.
  rewrite N.shiftr_shiftr. replace (h + (d - h)) with d by (clear - HH; lia).
  destruct (byte_step_ok w i 2 (N.shiftr (g c) d) (h + d) c2 _ (h + d) I ltac:(reflexivity) A2 ltac:(apply N.le_refl) ltac:(rewrite N.sub_diag; reflexivity) L2 T2) as (c3 & F3 & L3 & T3).
  rewrite F3. cbn [bind]. do 4 eexists. split; [reflexivity|]. split; [exact L3|].
  rewrite <- !app_assoc in T3. rewrite !N.shiftr_div_pow2 in T3.
  assert (E0 : g c mod 2 ^ 8 = field (g c) (byte_offset w 0) 8) by (unfold field, byte_offset; rewrite N.pow_0_r, N.div_1_r; reflexivity).
  rewrite E0 in T3. exact T3.
Qed.

(** For every width of at least a byte: the table counts, for each of the nine
    sampled positions, how often each byte value was seen. *)
Theorem C69_bytes_partial : forall g w tsamples c, 8 <= w -> w <= 32 ->
  exists counts, bytedistrib g w tsamples c = Ok (counts, (c + 3 * tsamples)%nat) /\ length counts = (256 * 9)%nat /\
    tallies counts (flat_map (sample_cells g w c) (seq 0 tsamples)).
Proof.
  intros g w n c W8 W32. unfold bytedistrib.
  destruct (iter_inv _ (bytes_sample g w) (fun t s => let '(counts, c') := s in c' = (c + 3 * t)%nat /\ length counts = (256 * 9)%nat /\
     tallies counts (flat_map (sample_cells g w c) (seq 0 t))) n (repeat 0 (256 * 9), c)) as ([counts c'] & E & -> & L & T).
  - split; [lia|]. split; [apply repeat_length|apply tallies_nil].
  - intros t [counts c'] Ht (-> & L & T). unfold bytes_sample.
    destruct (iter_inv _ (word_step g w) (fun k s => let '(i, cn, c') := s in i = N.of_nat k /\ c' = (c + 3 * t + k)%nat /\ length cn = (256 * 9)%nat /\
       tallies cn (flat_map (sample_cells g w c) (seq 0 t) ++ flat_map (fun i => map (byte_cell g w c t i) (seq 0 3)) (seq 0 k))) 3 (0, counts, (c + 3 * t)%nat))
      as ([[i cn] c'] & E & -> & -> & L' & T').
    + split; [reflexivity|]. split; [lia|]. split; [exact L|]. cbn [seq flat_map]. rewrite app_nil_r. exact T.
    + intros k [[i cn] c'] Hk (-> & -> & L' & T'). unfold word_step.
      destruct (word_ok g w (N.of_nat k) cn _ (c + 3 * t + k)%nat W8 W32 ltac:(lia) L' T') as (j & word & cur & cn' & F & L2 & T2).
      rewrite F. cbn [bind]. eexists. split; [reflexivity|]. split; [lia|]. split; [lia|]. split; [exact L2|].
      rewrite (seq_S k 0), flat_map_app. cbn [flat_map plus]. rewrite app_nil_r, app_assoc. exact T2.
    + rewrite E. cbn [bind]. eexists. split; [reflexivity|]. split; [lia|]. split; [exact L'|].
      rewrite seq_S, flat_map_app. cbn [flat_map plus]. rewrite app_nil_r. exact T'.
  - exists counts. auto.
Qed.
(** Generators of fewer than 8 bits: the first shift is undefined. *)
Theorem C69_narrow_refuted : forall g w tsamples c, w < 8 -> (0 < tsamples)%nat -> bytedistrib g w tsamples c = UB "shift count".
Proof.
  intros g w n c W N. destruct n; [lia|]. unfold bytedistrib. cbn [iter_o]. unfold bytes_sample at 1. change 3%nat with (S (S (S O))). cbn [iter_o].
  unfold word_step at 1. cbn [iter_o]. unfold byte_step at 1.
  assert (Q : (32 <=? (mul32 (0 + 1) (sub32 w 8) / (3 - 1)) mod 256 - 0) = true).
  { assert (C : w = 0 \/ w = 1 \/ w = 2 \/ w = 3 \/ w = 4 \/ w = 5 \/ w = 6 \/ w = 7) by lia.
    destruct C as [->|[->|[->|[->|[->|[->|[->| ->]]]]]]]; reflexivity. }
  rewrite Q, orb_true_r. reflexivity.
Qed.
Example C69_ex : sample_cells (fun i => 0x11223344 + N.of_nat i) 32 0 0 = map Z.of_N [0x44 * 9; 0x23 * 9 + 1; 0x11 * 9 + 2;
    0x45 * 9 + 3; 0x23 * 9 + 4; 0x11 * 9 + 5; 0x46 * 9 + 6; 0x23 * 9 + 7; 0x11 * 9 + 8] /\
  exists counts, bytedistrib (fun i => 0x11223344 + N.of_nat i) 32 2 0 = Ok (counts, 6%nat) /\ nth (0x11 * 9 + 2) counts 0 = 2.
Proof. split; [vm_compute; reflexivity|]. eexists. split; vm_compute; reflexivity. Qed.

(** ** C70: the permutations test *)

(** What the GSL manual promises: [sort_index] returns the indices 0..k-1 in an
    order that makes the numbers ascend, and the lookup table lists every
    permutation of 0..k-1 exactly once. *)
Definition sorts_index (sort_index : list N -> list nat) : Prop := forall l,
  Permutation (sort_index l) (seq 0 (length l)) /\ StronglySorted N.le (map (fun i => nth i l 0) (sort_index l)).
Definition all_permutations (k : nat) (lookup : list (list nat)) : Prop :=
  NoDup lookup /\ N.of_nat (length lookup) = factorial k /\ forall p, In p lookup <-> Permutation p (seq 0 k).

Lemma find_perm_ok : forall l ps i d, In ps l -> NoDup l -> exists n, find_perm i l ps d = (i + n)%nat /\ (n < length l)%nat /\ nth n l [] = ps.
Proof.
  induction l as [|p r IH]; intros ps i d I ND; [destruct I|]. cbn [find_perm]. inversion ND; subst.
  destruct (list_eq_dec Nat.eq_dec ps p) as [->|E].
  - exists 0%nat. split; [lia|]. split; [cbn; lia|reflexivity].
  - destruct I as [->|I]; [contradiction|]. destruct (IH ps (S i) d I H2) as (n & A & B & C). exists (S n). split; [lia|]. split; [cbn; lia|exact C].
Qed.
Lemma tuple_length : forall g n c, length (tuple g n c) = n.
Proof. induction n; intro; cbn; auto. Qed.

(** Every cell holds the number of tuples whose order is the cell's permutation. *)
Theorem C70_permutations : forall g sort_index lookup ntuple tsamples c, sorts_index sort_index ->
  (perm_size ntuple <= 12)%nat -> all_permutations (perm_size ntuple) lookup ->
  exists x, permutations g sort_index lookup ntuple tsamples c = Ok (x, (c + perm_size ntuple * tsamples)%nat) /\
    length x = length lookup /\
    forall i, (i < length lookup)%nat -> nth i x 0 =
      countp (fun t => if list_eq_dec Nat.eq_dec (sort_index (tuple g (perm_size ntuple) (c + perm_size ntuple * t))) (nth i lookup []) then true else false)
        (seq 0 tsamples).
Proof.
  intros g sidx lookup ntuple n c SI K12 (ND & LL & AP). unfold permutations. set (k := perm_size ntuple) in *.
  assert (FK : factorial k < 2 ^ 32).
  { assert (M : forall a b, (a <= b)%nat -> factorial a <= factorial b).
    { intros a b H. induction H; [lia|]. cbn [factorial]. lia. }
    eapply N.le_lt_trans; [apply (M k 12%nat K12)|reflexivity]. }
  rewrite (proj2 (N.leb_gt _ _)) by exact FK.
  assert (EL : N.to_nat (factorial k) = length lookup) by lia. rewrite EL.
  assert (G : forall t, exists m, (forall d, find_perm 0 lookup (sidx (tuple g k (c + k * t))) d = m) /\ (m < length lookup)%nat /\ nth m lookup [] = sidx (tuple g k (c + k * t))).
  { intro t. assert (I : In (sidx (tuple g k (c + k * t))) lookup).
    { apply AP. destruct (SI (tuple g k (c + k * t))) as [P _]. rewrite tuple_length in P. exact P. }
    destruct (find_perm_ok lookup _ 0 0 I ND) as (m & A & B & C). exists m. split; [|auto].
    intro d. destruct (find_perm_ok lookup _ 0 d I ND) as (m' & A' & B' & C'). rewrite A'. cbn [plus].
    apply (proj1 (NoDup_nth lookup []) ND); congruence. }
  destruct (iter_inv _ (perm_step g sidx lookup k) (fun t s => let '(x, pi, c') := s in c' = (c + k * t)%nat /\ length x = length lookup /\
     forall i, (i < length lookup)%nat -> nth i x 0 =
       countp (fun t => if list_eq_dec Nat.eq_dec (sidx (tuple g k (c + k * t))) (nth i lookup []) then true else false) (seq 0 t)) n
     (repeat 0 (length lookup), 0%nat, c)) as ([[x pi] c'] & E & -> & L & X).
  - split; [lia|]. split; [apply repeat_length|]. intros. apply nth_repeat.
  - intros t [[x pi] c'] Ht (-> & L & X). unfold perm_step. destruct (G t) as (m & A & B & C). rewrite A.
    rewrite bump_ok by lia. cbn [bind]. eexists. split; [reflexivity|]. split; [lia|]. split; [rewrite set_nth_length; exact L|].
    intros i Hi. rewrite seq_S, countp_app. cbn [countp plus]. rewrite <- C, Nat2Z.id. destruct (list_eq_dec Nat.eq_dec (nth m lookup []) (nth i lookup [])) as [D|D].
    + assert (m = i) by (apply (proj1 (NoDup_nth lookup []) ND); assumption). subst i. rewrite nth_set_nth_eq by lia. rewrite X by exact Hi. lia.
    + rewrite nth_set_nth_ne by congruence. rewrite X by exact Hi. lia.
  - exists x. rewrite E. cbn [bind]. auto.
Qed.
(** Tuples of 13 numbers and more: the number of permutations does not fit. *)
Theorem C70_large_refuted : forall g sort_index lookup ntuple tsamples c, (13 <= ntuple)%nat ->
  permutations g sort_index lookup ntuple tsamples c = UB "conversion of k!".
Proof.
  intros g sidx lookup k n c H. unfold permutations, perm_size. rewrite (proj2 (Nat.ltb_ge k 2)) by lia.
  rewrite (proj2 (N.leb_le _ _)); [reflexivity|].
  assert (M : forall a b, (a <= b)%nat -> factorial a <= factorial b).
  { intros a b Q. induction Q; [lia|]. cbn [factorial]. lia. }
  eapply N.le_trans; [|apply (M 13%nat k H)]. intro; discriminate.
Qed.
Example C70_ex : all_permutations 2 [[0; 1]; [1; 0]]%nat /\
  exists si, sorts_index si /\ permutations (fun i => nth i [5; 3; 1; 9; 4; 2] 0) si [[0; 1]; [1; 0]]%nat 2 3 0 = Ok ([1; 2], 6%nat).
Proof.
  split.
  - split; [repeat constructor; cbn; intuition discriminate|]. split; [reflexivity|]. intro p. split.
    + intros [<-|[<-|[]]]; [apply Permutation_refl|apply perm_swap].
    + intro P. apply Permutation_sym in P. apply Permutation_length_2_inv in P. cbn. destruct P as [->| ->]; auto.
  - (* insertion sort on indices *)
    set (ins := fix ins (l : list N) (i : nat) (p : list nat) := match p with [] => [i] | j :: r => if nth i l 0 <=? nth j l 0 then i :: j :: r else j :: ins l i r end).
    exists (fun l => fold_right (ins l) [] (seq 0 (length l))). split; [|vm_compute; reflexivity].
    intro l. assert (IP : forall i p, Permutation (ins l i p) (i :: p)).
    { intros i p. induction p as [|j r IH]; [apply Permutation_refl|]. cbn. destruct (_ <=? _); [apply Permutation_refl|].
      eapply Permutation_trans; [apply perm_skip, IH|apply perm_swap]. }
    split.
    + induction (seq 0 (length l)) as [|i r IH]; [constructor|]. cbn [fold_right]. eapply Permutation_trans; [apply IP|]. apply perm_skip. exact IH.
    + induction (seq 0 (length l)) as [|i r IH]; [constructor|]. cbn [fold_right]. revert IH. generalize (fold_right (ins l) [] r). clear - IP.
      induction l0 as [|j q IH]; intro S; [repeat constructor|]. cbn. inversion S; subst. destruct (N.leb_spec (nth i l 0) (nth j l 0)) as [LE|GT].
      * cbn. constructor; [exact S|]. constructor; [exact LE|]. rewrite Forall_forall in *. intros x I. specialize (H2 x I). lia.
      * cbn [map]. constructor; [apply IH; assumption|]. rewrite Forall_forall in *. intros x I. apply in_map_iff in I. destruct I as (y & <- & I).
        apply (Permutation_in _ (IP i q)) in I. destruct I as [<-|I]; [lia|]. apply H2. exact (in_map (fun i => nth i l 0) q y I).
Qed.

(** ** C71: persistent bits *)

(** Bit b is reported exactly if it is one of the generator's bits and kept the
    same value through all numbers of at least one sample. *)
Theorem C71_persist : forall rmax_mask samples, rmax_mask < 2 ^ 32 ->
  (forall s, In s samples -> s <> [] /\ forall x, In x s -> x < 2 ^ 32) ->
  exists m, persist rmax_mask samples 0 = Ok m /\
    forall b, N.testbit m b = true <->
      N.testbit rmax_mask b = true /\ exists s, In s samples /\ forall x y, In x s -> In y s -> N.testbit x b = N.testbit y b.
Proof.
  intros mask samples M H.
  assert (S1 : forall s, s <> [] -> (forall x, In x s -> x < 2 ^ 32) -> exists m, persist_sample mask s = Ok m /\
    forall b, N.testbit m b = true <-> N.testbit mask b = true /\ forall x y, In x s -> In y s -> N.testbit x b = N.testbit y b).
  { intros s NE B. destruct s as [|x0 r]; [contradiction|]. unfold persist_sample. cbn [aget]. rewrite (aget_ok (x0 :: r) 0 0) by (cbn [length]; lia).
    change (nth (Z.to_nat 0) (x0 :: r) 0) with x0. cbn [bind]. eexists. split; [reflexivity|]. intro b. rewrite N.land_spec.
    assert (N32 : forall x i, i < 32 -> N.testbit (not32 x) i = negb (N.testbit x i)).
    { intros x i Hi. unfold not32. change (2 ^ 32 - 1) with (N.ones 32). rewrite N.lxor_spec, testbit_ones, (proj2 (N.ltb_lt i 32)) by exact Hi. destruct (N.testbit x i); reflexivity. }
    assert (F : forall l m0, b < 32 -> N.testbit (fold_left (fun m x => N.land m (not32 (N.lxor x0 x))) l m0) b = true <->
       N.testbit m0 b = true /\ forall x, In x l -> N.testbit x b = N.testbit x0 b).
    { intros l m0 Hb. revert m0. induction l as [|x l IH]; intro m0; cbn [fold_left].
      - split; [intro Q; split; [exact Q|intros ? []]|intros [Q _]; exact Q].
      - rewrite IH, N.land_spec, N32, N.lxor_spec by exact Hb. split.
        + intros [Q1 Q2]. apply andb_prop in Q1 as [Q1 Q3]. split; [exact Q1|]. intros y [<-|I]; [|apply Q2; exact I].
          destruct (N.testbit x0 b), (N.testbit x b); cbn in Q3; congruence.
        + intros [Q1 Q2]. split; [|intros; apply Q2; right; assumption]. rewrite Q1, (Q2 x (or_introl eq_refl)). destruct (N.testbit x0 b); reflexivity. }
    destruct (N.ltb_spec b 32) as [Hb|Hb].
    - rewrite andb_true_iff, F by exact Hb. rewrite N32, N.lxor_spec, xorb_nilpotent by exact Hb. split.
      + intros [[_ Q] K]. split; [exact K|]. intros x y I J. rewrite (Q x I), (Q y J). reflexivity.
      + intros [K Q]. split; [|exact K]. split; [reflexivity|]. intros x I. apply Q; [exact I|left; reflexivity].
    - rewrite (testbit_lt mask 32 b M Hb), andb_false_r. split; [discriminate|intros [Q _]; discriminate]. }
  assert (G : forall samples m0, (forall s, In s samples -> s <> [] /\ forall x, In x s -> x < 2 ^ 32) -> exists m, persist mask samples m0 = Ok m /\
    forall b, N.testbit m b = true <-> N.testbit m0 b = true \/ (N.testbit mask b = true /\ exists s, In s samples /\ forall x y, In x s -> In y s -> N.testbit x b = N.testbit y b)).
  { clear - S1. induction samples as [|s r IH]; intros m0 H; cbn [persist].
    - exists m0. split; [reflexivity|]. intro b. split; [auto|]. intros [Q|(_ & s & [] & _)]. exact Q.
    - destruct (H s (or_introl eq_refl)) as [NE B]. destruct (S1 s NE B) as (m & E & P). rewrite E. cbn [bind].
      destruct (IH (N.lor m0 m)) as (m' & E' & P'); [intros; apply H; right; assumption|]. exists m'. split; [exact E'|].
      intro b. rewrite P', N.lor_spec, orb_true_iff, P. split.
      + intros [[Q|[K Q]]|(K & s' & I & Q)]; [auto|right; split; [exact K|exists s; split; [left; reflexivity|exact Q]]|right; split; [exact K|exists s'; split; [right; exact I|exact Q]]].
      + intros [Q|(K & s' & [<-|I] & Q)]; [auto|left; right; auto|right; split; [exact K|exists s'; auto]]. }
  destruct (G samples 0 H) as (m & E & P). exists m. split; [exact E|]. intro b. rewrite P, N.bits_0. split; [intros [Q|Q]; [discriminate|exact Q]|auto].
Qed.
Example C71_ex : persist 0x7F [[0x81; 0x83; 0xA1]; [0x01; 0x43; 0x11]] 0 = Ok 0x7D.
Proof. vm_compute. reflexivity. Qed.

(** ** C72: lagged sums *)

(** Sample t of the sum is draw (lag+1)t + lag, and exactly (lag+1)*tsamples
    numbers are drawn. *)
Theorem C72_lagged : forall A (add : A -> A -> A) u lag tsamples x0 c,
  lagged add u lag tsamples x0 c =
  (fold_left add (map (fun t => u (c + (lag + 1) * t + lag)%nat) (seq 0 tsamples)) x0, (c + (lag + 1) * tsamples)%nat).
Proof.
  intros A add u lag n. assert (SK : forall l c, skip l c = (c + l)%nat) by (induction l; intro; cbn [skip]; [lia|rewrite IHl; lia]).
  induction n; intros x0 c; cbn [lagged].
  - cbn. f_equal. lia.
  - rewrite SK, IHn. f_equal; [|nia]. change (seq 0 (S n)) with (0%nat :: seq 1 n). cbn [map fold_left].
    rewrite <- seq_shift, map_map. rewrite Nat.mul_0_r, Nat.add_0_r. f_equal. apply map_ext. intro t. f_equal. nia.
Qed.
Example C72_ex : lagged N.add (fun i => N.of_nat i * N.of_nat i) 2 3 0 1 = (9 + 36 + 81, 10%nat).
Proof. reflexivity. Qed.

Print Assumptions C69_bytes_partial.
Print Assumptions C69_narrow_refuted.
Print Assumptions C70_permutations.
Print Assumptions C70_large_refuted.
Print Assumptions C71_persist.
Print Assumptions C72_lagged.
