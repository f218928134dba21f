(** The bins of the tree-filling tests and their first p-value, in exact arithmetic. *)
From Coq Require Import List NArith ZArith Reals Lia Lra.
From Verif Require Import BaseLemmas TallyLemmas OpermReal RunsArcs ChisqLemmas PropChisq PropChisq3 CoinLaw TreeLawSpec.
Import ListNotations.
Open Scope R_scope.

Lemma gt_real x y : ngt reals x y = if Rlt_dec y x then true else false.
Proof. reflexivity. Qed.
Lemma range_inv (es : list R) a b : (1 <= a <= b)%nat -> (forall i, (i < a)%nat -> nth i es 0 < 4) -> (forall i, (a <= i <= b)%nat -> 4 <= nth i es 0) -> 4 < nth b es 0 ->
  (forall i, (b < i < length es)%nat -> nth i es 0 <= 4) ->
  forall l i s, (i + length l = length es)%nat -> (forall j, (j < length l)%nat -> nth j l 0 = nth (i + j) es 0) ->
    ((i <= a)%nat -> s = (i - 1, 0)%nat) -> ((a < i)%nat -> fst s = (a - 1)%nat) -> ((b < i)%nat -> snd s = b) -> (b < length es)%nat -> range_loop reals i l s = (a - 1, b)%nat.
Proof.
  intros AB LO MI TB HI. induction l as [|e l IH]; intros i [st sp] LEN EL S1 S2 S3 BL; cbn [range_loop].
  - cbn in LEN. rewrite Nat.add_0_r in LEN. cbn [fst snd] in *. rewrite S2, S3 by lia. reflexivity.
  - cbn [length] in *. pose proof (EL 0%nat ltac:(lia)) as E0. cbn [nth] in E0. rewrite Nat.add_0_r in E0.
    assert (ST : range_step reals i e (st, sp) = if (i <? a)%nat then (i, 0)%nat else if (i <=? b)%nat then (a - 1, if Rlt_dec 4 e then i else sp)%nat else (a - 1, b)%nat).
    { unfold range_step. rewrite !gt_real. change (nint reals 4) with 4.
      destruct (Nat.ltb_spec i a) as [IA|IA].
      - destruct (Rlt_dec e 4) as [L|L]; [|pose proof (LO i IA); lra]. pose proof (S1 ltac:(lia)) as Q. injection Q as -> ->. reflexivity.
      - assert (FST : st = (a - 1)%nat). { destruct (Nat.eq_dec i a) as [->|N]; [pose proof (S1 ltac:(lia)) as Q; injection Q; auto|]. apply (S2 ltac:(lia)). }
        destruct (Nat.leb_spec i b) as [IB|IB].
        + destruct (Rlt_dec e 4) as [L|L]; [pose proof (MI i ltac:(lia)); lra|]. destruct (Rlt_dec 4 e); rewrite FST; reflexivity.
        + pose proof (S3 IB) as Q. cbn in Q. subst sp st. destruct (Rlt_dec e 4) as [L|L].
          * rewrite (proj2 (Nat.eqb_neq b 0)) by lia. reflexivity.
          * destruct (Rlt_dec 4 e) as [G|G]; [pose proof (HI i ltac:(lia)); lra|reflexivity]. }
    rewrite ST. apply IH; [lia| | | | |exact BL].
    + intros j J. pose proof (EL (S j) ltac:(lia)) as Q. cbn [nth] in Q. rewrite Q. f_equal. lia.
    + intro IA. rewrite (proj2 (Nat.ltb_lt i a)) by lia. f_equal. lia.
    + intro IA. destruct (Nat.ltb_spec i a) as [Q|Q]; [cbn [fst]; lia|]. destruct (Nat.leb_spec i b); reflexivity.
    + intro IB. destruct (Nat.ltb_spec i a) as [Q|Q]; [lia|]. destruct (Nat.leb_spec i b) as [Q2|Q2]; [|reflexivity]. assert (i = b) by lia. subst i. cbn [snd]. destruct (Rlt_dec 4 e); [reflexivity|lra].
Qed.
Lemma expected_nth table m i : (i < length table)%nat -> nth i (tree_expected reals table (N.of_nat m)) 0 = INR m * entry table i.
Proof.
  intro H. unfold tree_expected. rewrite (nth_indep _ 0 ((fun me : Z * Z => nmul reals (nlit reals (fst me) (10 ^ snd me)) (nint reals (Z.of_N (N.of_nat m)))) (0, 0)%Z)) by (rewrite map_length; exact H).
  rewrite (map_nth (fun me : Z * Z => nmul reals (nlit reals (fst me) (10 ^ snd me)) (nint reals (Z.of_N (N.of_nat m))))). unfold entry. cbn [nmul nlit nint reals]. rewrite nat_N_Z, <- INR_IZR_INZ. change (num reals) with R. apply Rmult_comm.
Qed.
Lemma expected_length table m : length (tree_expected reals table m) = length table.
Proof. apply map_length. Qed.
Lemma range_ok table m a b : bins table (INR m) a b -> tree_range reals (tree_expected reals table (N.of_nat m)) = (a, b).
Proof.
  intros (AB & BL & LO & MI & TB & HI). unfold tree_range. set (es := tree_expected reals table (N.of_nat m)).
  assert (LE : length es = length table) by apply expected_length.
  assert (EV : forall i, (i < length table)%nat -> nth i es 0 = INR m * entry table i) by (intros; apply expected_nth; assumption).
  change (num reals) with R in *.
  assert (X : range_loop reals 0 es (0, 0)%nat = (a - 1, b)%nat).
  { apply (range_inv es a b AB).
    - intros i I. rewrite EV by lia. apply LO. exact I.
    - intros i I. rewrite EV by lia. apply MI. exact I.
    - rewrite EV by lia. exact TB.
    - intros i I. rewrite EV by lia. apply HI. lia.
    - reflexivity.
    - intros; reflexivity.
    - reflexivity.
    - lia.
    - lia.
    - lia. }
  rewrite X. f_equal. lia.
Qed.

Lemma total_rsum {B} (f : B -> R) d : forall l, ChisqSpec.total f l = rsum (length l) (fun j => f (nth j l d)).
Proof.
  induction l as [|x l IH]; [reflexivity|]. cbn [ChisqSpec.total fold_right length]. rewrite CoinLaw.rsum_first. cbn [nth]. rewrite <- IH. reflexivity.
Qed.
Lemma nth_skipn' {B} (d : B) : forall a l j, nth j (skipn a l) d = nth (a + j) l d.
Proof. induction a as [|a IH]; intros l j; [reflexivity|]. destruct l as [|x l]; [destruct j; reflexivity|]. cbn. apply IH. Qed.
Lemma nth_firstn' {B} (d : B) : forall n k l, (k < n)%nat -> nth k (firstn n l) d = nth k l d.
Proof. induction n as [|n IH]; intros k l H; [lia|]. destruct l as [|x l]; [reflexivity|]. destruct k as [|k]; [reflexivity|]. cbn. apply IH. lia. Qed.
Lemma tree_pvalue_ok Q table counts m a b rs : bins table (INR m) a b -> length counts = length table ->
  (forall i, (i < length table)%nat -> nth i counts 0%N = countp (took i) rs) ->
  tree_pvalue reals Q counts (tree_expected reals table (N.of_nat m)) = Ok (Q ((INR (b - a) - 1) / 2) (bins_chisq table (INR m) a b rs / 2)).
Proof.
  intros B L C. unfold tree_pvalue. rewrite (range_ok table m a b B). destruct B as (AB & BL & _).
  set (E := tree_expected reals table (N.of_nat m)). assert (LE : length E = length table) by apply expected_length.
  replace (Z.of_nat b - Z.of_nat a)%Z with (Z.of_nat (b - a)) by lia. unfold chisq_pearson. destruct (Z.ltb_spec (Z.of_nat (b - a)) 0); [lia|].
  set (O := map (fun n => nint reals (Z.of_N n)) counts). assert (LO : length O = length table) by (unfold O; rewrite map_length; exact L).
  rewrite (sum_fold reals) by (rewrite skipn_length; change (num reals) with R in *; lia). cbn [bind]. rewrite fold_real. unfold pearson_p.
  change (nint reals) with IZR. change (ndiv reals) with Rdiv. change (num reals) with R in *. rewrite minus_IZR, <- INR_IZR_INZ. do 3 f_equal.
  unfold pearson, bins_chisq. rewrite (total_rsum _ (0, 0)).
  assert (LL : length (firstn (b - a) (combine (skipn a O) (skipn a E))) = (b - a)%nat) by (rewrite firstn_length, combine_length, !skipn_length; lia). rewrite LL.
  apply rsum_ext. intros j J. rewrite nth_firstn' by exact J. rewrite combine_nth by (rewrite !skipn_length; lia). cbn [fst snd]. rewrite !nth_skipn'.
  unfold E. rewrite expected_nth by lia. unfold how_many. rewrite <- C by lia. unfold O.
  rewrite (nth_indep _ 0 ((fun n => nint reals (Z.of_N n)) 0%N)) by (rewrite map_length; lia). rewrite (map_nth (fun n => nint reals (Z.of_N n))). reflexivity.
Qed.

(** ** Tables that rise and fall *)
Definition entry_le (x y : Z * Z) : bool := ((0 <=? snd x) && (0 <=? snd y) && (fst x * 10 ^ snd y <=? fst y * 10 ^ snd x))%Z.
Definition unimodal (table : list (Z * Z)) (peak : nat) : bool :=
  forallb (fun i => let x := nth i table (0, 0)%Z in let y := nth (S i) table (0, 0)%Z in if (i <? peak)%nat then entry_le x y else entry_le y x) (seq 0 (length table - 1)).
Lemma entry_le_ok table i j : entry_le (nth i table (0, 0)%Z) (nth j table (0, 0)%Z) = true -> entry table i <= entry table j.
Proof.
  unfold entry_le, entry. destruct (nth i table (0, 0)%Z) as [m e], (nth j table (0, 0)%Z) as [n f]. cbn [fst snd]. intro H. apply andb_prop in H. destruct H as [H H3]. apply andb_prop in H. destruct H as [H1 H2].
  apply Z.leb_le in H1, H2, H3. assert (P1 : 0 < IZR (10 ^ e)) by (apply IZR_lt, Z.pow_pos_nonneg; lia). assert (P2 : 0 < IZR (10 ^ f)) by (apply IZR_lt, Z.pow_pos_nonneg; lia).
  apply IZR_le in H3. rewrite !mult_IZR in H3. generalize dependent (IZR (10 ^ e)). generalize dependent (IZR (10 ^ f)). intros y Y x H3 X.
  apply Rmult_le_reg_r with (x * y); [nra|]. replace (IZR m / x * (x * y)) with (IZR m * y) by (field; lra). replace (IZR n / y * (x * y)) with (IZR n * x) by (field; lra). exact H3.
Qed.
Lemma rising table peak : unimodal table peak = true -> (peak < length table)%nat -> forall d i, (i + d <= peak)%nat -> entry table i <= entry table (i + d).
Proof.
  intros U P. induction d as [|d IH]; intros i H; [rewrite Nat.add_0_r; lra|]. unfold unimodal in U. rewrite forallb_forall in U.
  specialize (U (i + d)%nat ltac:(apply in_seq; lia)). cbv zeta in U. rewrite (proj2 (Nat.ltb_lt (i + d) peak)) in U by lia. apply entry_le_ok in U. specialize (IH i ltac:(lia)). rewrite Nat.add_succ_r. lra.
Qed.
Lemma falling table peak : unimodal table peak = true -> forall d i, (peak <= i)%nat -> (i + d < length table)%nat -> entry table (i + d) <= entry table i.
Proof.
  intros U. induction d as [|d IH]; intros i H L; [rewrite Nat.add_0_r; lra|]. unfold unimodal in U. rewrite forallb_forall in U.
  specialize (U (i + d)%nat ltac:(apply in_seq; lia)). cbv zeta in U. rewrite (proj2 (Nat.ltb_ge (i + d) peak)) in U by lia. apply entry_le_ok in U. specialize (IH i H ltac:(lia)). rewrite Nat.add_succ_r. lra.
Qed.
Lemma first_where (P : nat -> Prop) : (forall i, {P i} + {~ P i}) -> forall n, P n -> exists a, (a <= n)%nat /\ P a /\ forall i, (i < a)%nat -> ~ P i.
Proof.
  intros D. induction n as [n IH] using lt_wf_ind. intro H.
  assert (X : {exists i, (i < n)%nat /\ P i} + {forall i, (i < n)%nat -> ~ P i}).
  { clear IH H. induction n as [|n IHn]; [right; intros; lia|]. destruct IHn as [Y|Y]; [left; destruct Y as (i & L & Q); exists i; split; [lia|exact Q]|].
    destruct (D n) as [Q|Q]; [left; exists n; split; [lia|exact Q]|right]. intros i L. destruct (Nat.eq_dec i n) as [->|N]; [exact Q|apply Y; lia]. }
  destruct X as [(i & L & Q)|X]; [|exists n; auto]. destruct (IH i L Q) as (a & A1 & A2 & A3). exists a. split; [lia|auto].
Qed.
Lemma last_where (P : nat -> Prop) : (forall i, {P i} + {~ P i}) -> forall d n, P n -> exists b, (n <= b <= n + d)%nat /\ P b /\ forall i, (b < i <= n + d)%nat -> ~ P i.
Proof.
  intros D. induction d as [|d IH]; intros n H; [exists n; split; [lia|]; split; [exact H|intros; lia]|].
  destruct (D (n + S d)%nat) as [Q|Q]; [exists (n + S d)%nat; split; [lia|]; split; [exact Q|intros; lia]|].
  destruct (IH n H) as (b & B1 & B2 & B3). exists b. split; [lia|]. split; [exact B2|]. intros i I. destruct (Nat.eq_dec i (n + S d)) as [->|N]; [exact Q|apply B3; lia].
Qed.
Lemma bins_exist table peak m : unimodal table peak = true -> (peak < length table)%nat -> entry table 0 = 0 -> 0 <= m -> 4 < m * entry table peak -> exists a b, bins table m a b.
Proof.
  intros U PL Z M H.
  destruct (first_where (fun i => 4 <= m * entry table i) (fun i => ltac:(destruct (Rle_lt_dec 4 (m * entry table i)); [left; assumption|right; lra])) peak ltac:(cbv beta; lra)) as (a & A1 & A2 & A3).
  destruct (last_where (fun i => 4 < m * entry table i) (fun i => ltac:(destruct (Rlt_dec 4 (m * entry table i)); [left; assumption|right; assumption])) (length table - 1 - peak) peak H) as (b & B1 & B2 & B3).
  assert (A0 : a <> 0%nat) by (intro Q; subst a; rewrite Z in A2; lra).
  exists a, b. split; [lia|]. split; [lia|]. split; [intros i I; specialize (A3 i I); lra|]. split.
  - intros i I. destruct (Nat.leb_spec i peak) as [L|L].
    + pose proof (rising table peak U PL (i - a) a ltac:(lia)) as Q. replace (a + (i - a))%nat with i in Q by lia. nra.
    + pose proof (falling table peak U (b - i) i ltac:(lia) ltac:(lia)) as Q. replace (i + (b - i))%nat with b in Q by lia. nra.
  - split; [exact B2|]. intros i I. specialize (B3 i ltac:(lia)). lra.
Qed.
Lemma below_peak table peak i : unimodal table peak = true -> (peak < length table)%nat -> (i < length table)%nat -> entry table i <= entry table peak.
Proof.
  intros U P L. destruct (Nat.leb_spec i peak) as [H|H].
  - pose proof (rising table peak U P (peak - i) i ltac:(lia)) as Q. replace (i + (peak - i))%nat with peak in Q by lia. exact Q.
  - pose proof (falling table peak U (i - peak) peak ltac:(lia) ltac:(lia)) as Q. replace (peak + (i - peak))%nat with i in Q by lia. exact Q.
Qed.
(** No expected count above four: no bins at all. *)
Lemma range_none table m : (forall i, (i < length table)%nat -> INR m * entry table i < 4) ->
  tree_range reals (tree_expected reals table (N.of_nat m)) = (S (length table - 1), 0)%nat.
Proof.
  intro H. unfold tree_range. set (es := tree_expected reals table (N.of_nat m)). assert (LE : length es = length table) by apply expected_length.
  assert (X : forall l i st, (forall j, (j < length l)%nat -> nth j l 0 < 4) -> range_loop reals i l (st, 0%nat) = (match l with [] => st | _ => (i + length l - 1)%nat end, 0%nat)).
  { induction l as [|e l IH]; intros i st Q; [reflexivity|]. cbn [range_loop]. unfold range_step. rewrite gt_real. pose proof (Q 0%nat ltac:(cbn; lia)) as E0. cbn in E0.
    change (nint reals 4) with 4. destruct (Rlt_dec e 4); [|lra]. cbn [Nat.eqb]. rewrite IH.
    - destruct l; cbn [length]; f_equal; lia.
    - intros j J. apply (Q (S j)). cbn. lia. }
  rewrite X.
  - change (num reals) with R. destruct es as [|e es]; [cbn in LE; rewrite <- LE; reflexivity|]. rewrite <- LE. cbn [length]. f_equal.
  - intros j J. assert (JL : (j < length table)%nat) by (rewrite <- LE; exact J). unfold es. rewrite expected_nth by exact JL. apply H. exact JL.
Qed.
Lemma bins_at table peak m a b : unimodal table peak = true -> (peak < length table)%nat -> 0 <= m -> (1 <= a <= peak)%nat -> (peak <= b < length table)%nat ->
  m * entry table (a - 1) < 4 -> 4 <= m * entry table a -> 4 < m * entry table b -> ((S b < length table)%nat -> m * entry table (S b) <= 4) -> bins table m a b.
Proof.
  intros U PL M A B H1 H2 H3 H4. split; [lia|]. split; [lia|]. split; [|split; [|split; [exact H3|]]].
  - intros i I. pose proof (rising table peak U PL (a - 1 - i) i ltac:(lia)) as Q. replace (i + (a - 1 - i))%nat with (a - 1)%nat in Q by lia. nra.
  - intros i I. destruct (Nat.leb_spec i peak) as [L|L].
    + pose proof (rising table peak U PL (i - a) a ltac:(lia)) as Q. replace (a + (i - a))%nat with i in Q by lia. nra.
    + pose proof (falling table peak U (b - i) i ltac:(lia) ltac:(lia)) as Q. replace (i + (b - i))%nat with b in Q by lia. nra.
  - intros i I. pose proof (falling table peak U (i - S b) (S b) ltac:(lia) ltac:(lia)) as Q. replace (S b + (i - S b))%nat with i in Q by lia. specialize (H4 ltac:(lia)). nra.
Qed.
(** Sums of entries *)
Fixpoint zsum (n : nat) (f : nat -> Z) : Z := match n with O => 0%Z | S n => (zsum n f + f n)%Z end.
Definition scaled (E : Z) (x : Z * Z) : Z := (fst x * 10 ^ (E - snd x))%Z.
Lemma entries_sum table a n E : forallb (fun j => let e := snd (nth (a + j) table (0, 0)%Z) in ((0 <=? e) && (e <=? E))%Z) (seq 0 n) = true ->
  rsum n (fun j => entry table (a + j)) = IZR (zsum n (fun j => scaled E (nth (a + j) table (0, 0)%Z))) / IZR (10 ^ E).
Proof.
  intro H. rewrite forallb_forall in H.
  assert (G : forall k, (k <= n)%nat -> rsum k (fun j => entry table (a + j)) = IZR (zsum k (fun j => scaled E (nth (a + j) table (0, 0)%Z))) / IZR (10 ^ E)).
  { induction k as [|k IH]; intro K; [cbn [rsum zsum]; unfold Rdiv; rewrite Rmult_0_l; reflexivity|]. cbn [rsum zsum]. rewrite IH by lia. rewrite plus_IZR.
    specialize (H k ltac:(apply in_seq; lia)). cbv zeta in H. unfold entry, scaled. destruct (nth (a + k) table (0, 0)%Z) as [m e]. cbn [fst snd] in *. apply andb_prop in H. destruct H as [H1 H2]. apply Z.leb_le in H1, H2.
    replace (10 ^ E)%Z with (10 ^ e * 10 ^ (E - e))%Z by (rewrite <- Z.pow_add_r by lia; f_equal; lia). rewrite !mult_IZR.
    assert (P1 : IZR (10 ^ e) <> 0) by (apply IZR_neq, Z.pow_nonzero; lia). assert (P2 : IZR (10 ^ (E - e)) <> 0) by (apply IZR_neq, Z.pow_nonzero; lia). field. split; assumption. }
  apply G. lia.
Qed.
Lemma bins_unique table m a b a' b' : bins table m a b -> bins table m a' b' -> a = a' /\ b = b'.
Proof.
  intros (A1 & A2 & A3 & A4 & A5 & A6) (B1 & B2 & B3 & B4 & B5 & B6). split.
  - destruct (Nat.lt_total a a') as [H|[H|H]]; [|exact H|]; exfalso.
    + pose proof (B3 a H). pose proof (A4 a ltac:(lia)). lra.
    + pose proof (A3 a' H). pose proof (B4 a' ltac:(lia)). lra.
  - destruct (Nat.lt_total b b') as [H|[H|H]]; [|exact H|]; exfalso.
    + pose proof (A6 b' ltac:(lia)). lra.
    + pose proof (B6 b ltac:(lia)). lra.
Qed.
Lemma rsum_abs n f : Rabs (rsum n f) <= rsum n (fun k => Rabs (f k)).
Proof. induction n as [|n IH]; cbn [rsum]; [rewrite Rabs_R0; lra|]. eapply Rle_trans; [apply Rabs_triang|]. lra. Qed.
Lemma rsum_term n f k : (forall i, 0 <= f i) -> (k < n)%nat -> f k <= rsum n f.
Proof.
  intros P. induction n as [|n IH]; intro K; [lia|]. cbn [rsum]. destruct (Nat.eq_dec k n) as [->|N].
  - assert (0 <= rsum n f) by (clear - P; induction n as [|n IH]; cbn [rsum]; [lra|]; pose proof (P n); lra). lra.
  - pose proof (IH ltac:(lia)). pose proof (P n). lra.
Qed.
Lemma entry_is table i m e d : nth i table (0, 0)%Z = (m, e) -> (10 ^ e)%Z = d -> entry table i = IZR m / IZR d.
Proof. unfold entry. intros -> <-. reflexivity. Qed.
Lemma abs_bounds x y : Rabs x <= y -> - y <= x <= y.
Proof. intro H. pose proof (Rle_abs x). pose proof (Rle_abs (- x)) as G. rewrite Rabs_Ropp in G. lra. Qed.
