(** C162: the chi-square test of the numbers of divisions in marsaglia_tsang_gcd. *)
From Coq Require Import Lia Lra Reals.
From Verif Require Import BaseLemmas OpermLemmas OpermReal RunsArcs VtestArithLemmas VtestLaw VtestLawSpec PropVtestLaw PropGcd.
From Verif Require Export GcdModel GcdSpec GcdStepsModel.
Open Scope N_scope.

(** ** Counting the pairs with one division *)
Definition range (m : N) : list N := map N.of_nat (seq 1 (N.to_nat m)).
Lemma in_range m x : In x (range m) <-> 1 <= x <= m.
Proof.
  unfold range. rewrite in_map_iff. split.
  - intros (k & <- & K). apply in_seq in K. lia.
  - intro H. exists (N.to_nat x). split; [lia|]. apply in_seq. lia.
Qed.
Lemma range_length m : N.of_nat (length (range m)) = m.
Proof. unfold range. rewrite map_length, seq_length. lia. Qed.
Lemma range_nodup m : NoDup (range m).
Proof. unfold range. apply FinFun.Injective_map_NoDup; [intros a b; lia|apply seq_NoDup]. Qed.

Fixpoint nsum (l : list N) (f : N -> N) : N := match l with [] => 0 | x :: r => f x + nsum r f end.
Lemma nsum_app l m f : nsum (l ++ m) f = nsum l f + nsum m f.
Proof. induction l as [|x l IH]; cbn [app nsum]; [reflexivity|]. rewrite IH. lia. Qed.
Lemma nsum_le l f g : (forall x, In x l -> f x <= g x) -> nsum l f <= nsum l g.
Proof. induction l as [|x l IH]; intro H; cbn [nsum]; [lia|]. pose proof (H x (or_introl eq_refl)). pose proof (IH (fun y Y => H y (or_intror Y))). lia. Qed.
Lemma nsum_const l c : nsum l (fun _ => c) = N.of_nat (length l) * c.
Proof. induction l as [|x l IH]; cbn [nsum length]; [reflexivity|]. rewrite IH. lia. Qed.

Lemma flat_length (f : N -> list (N * N)) l : N.of_nat (length (flat_map f l)) = nsum l (fun v => N.of_nat (length (f v))).
Proof. induction l as [|x l IH]; cbn [flat_map nsum]; [reflexivity|]. rewrite app_length, <- IH. lia. Qed.
(** Pairs (u, v) of numbers from 1 to m, v dividing u: at most the sum of the m/v. *)
Lemma dividing_pairs m (l : list (N * N)) : NoDup l -> (forall u v, In (u, v) l -> 1 <= u <= m /\ 1 <= v <= m /\ u mod v = 0) ->
  N.of_nat (length l) <= nsum (range m) (fun v => m / v).
Proof.
  intros D H. set (f := fun v => map (fun q => (v * q, v)) (range (m / v))).
  assert (I : incl l (flat_map f (range m))).
  { intros (u, v) P. destruct (H u v P) as (U & V & Z). apply in_flat_map. exists v. split; [now apply in_range|].
    unfold f. apply in_map_iff. exists (u / v). pose proof (N.div_mod u v ltac:(lia)) as E. split; [f_equal; lia|]. apply in_range. split.
    - destruct (N.eq_dec (u / v) 0) as [Q|]; [rewrite Q in E; lia|lia].
    - apply N.div_le_mono; lia. }
  pose proof (NoDup_incl_length D I) as L. assert (E : N.of_nat (length (flat_map f (range m))) = nsum (range m) (fun v => m / v)).
  { rewrite flat_length. unfold f. clear. induction (range m) as [|v r IH]; cbn [nsum]; [reflexivity|]. rewrite IH, map_length, range_length. reflexivity. }
  lia.
Qed.
Lemma NoDup_list_prod {X Y} (l : list X) (m : list Y) : NoDup l -> NoDup m -> NoDup (list_prod l m).
Proof.
  intros D E. induction D as [|x l N D IH]; cbn [list_prod]; [constructor|]. apply OpermLemmas.nodup_app.
  - apply FinFun.Injective_map_NoDup; [intros a b Q; now injection Q|exact E].
  - exact IH.
  - intros (a, b) P Q. apply in_map_iff in P. destruct P as (c & P & _). injection P as <- <-. apply in_prod_iff in Q. tauto.
Qed.
Lemma all_pairs m (l : list (N * N)) : NoDup l -> (forall u v, In (u, v) l <-> 1 <= u <= m /\ 1 <= v <= m) -> N.of_nat (length l) = m * m.
Proof.
  intros D H. assert (P : length l = length (list_prod (range m) (range m))).
  { apply Nat.le_antisymm; apply NoDup_incl_length; try assumption.
    - intros (u, v) I. apply in_prod_iff. rewrite !in_range. now apply H.
    - apply NoDup_list_prod; apply range_nodup.
    - intros (u, v) I. apply in_prod_iff in I. rewrite !in_range in I. now apply H. }
  rewrite P, prod_length. rewrite Nat2N.inj_mul, range_length. reflexivity.
Qed.

(** A bound for that sum: from 32 on, 2^s numbers at a time. *)
Definition block (m s j : N) : N := 2 ^ s * (m / (j * 2 ^ s)).
Definition bound (m : N) (k : nat) : N :=
  nsum (range 31) (fun v => m / v) + fold_right (fun s a => nsum (map N.of_nat (seq 32 32)) (block m (N.of_nat s)) + a) 0 (seq 0 k).
Definition span (a n : N) : list N := map (fun i => a + N.of_nat i) (seq 0 (N.to_nat n)).
Lemma span_app a n p : span a (n + p) = span a n ++ span (a + n) p.
Proof.
  unfold span. rewrite N2Nat.inj_add, seq_app, map_app. f_equal. rewrite Nat.add_0_l.
  replace (seq (N.to_nat n) (N.to_nat p)) with (map (fun i => (N.to_nat n + i)%nat) (seq 0 (N.to_nat p))).
  - rewrite map_map. apply map_ext. intro i. lia.
  - clear. generalize (N.to_nat n). intro a. generalize (N.to_nat p). intro k. assert (G : forall b, map (fun i => (a + i)%nat) (seq b k) = seq (a + b) k).
    { induction k as [|k IH]; intro b; [reflexivity|]. cbn [seq map]. rewrite IH. f_equal. f_equal. lia. }
    rewrite G. f_equal. lia.
Qed.
Lemma span_block m s j : 1 <= j -> nsum (span (j * 2 ^ s) (2 ^ s)) (fun v => m / v) <= block m s j.
Proof.
  intro J. assert (P : 0 < 2 ^ s) by (apply N.neq_0_lt_0, N.pow_nonzero; lia). etransitivity.
  - apply (nsum_le _ _ (fun _ => m / (j * 2 ^ s))). intros x I. unfold span in I. apply in_map_iff in I. destruct I as (i & <- & I).
    apply N.div_le_compat_l. nia.
  - rewrite nsum_const. unfold span. rewrite map_length, seq_length, N2Nat.id. reflexivity.
Qed.
Lemma span_blocks m s : forall k j, 1 <= j -> nsum (span (j * 2 ^ s) (N.of_nat k * 2 ^ s)) (fun v => m / v) <= nsum (map N.of_nat (seq (N.to_nat j) k)) (block m s).
Proof.
  induction k as [|k IH]; intros j J; [cbn; lia|]. replace (N.of_nat (S k) * 2 ^ s) with (2 ^ s + N.of_nat k * 2 ^ s) by lia.
  rewrite span_app, nsum_app. cbn [seq map nsum]. rewrite N2Nat.id. pose proof (span_block m s j J). specialize (IH (j + 1) ltac:(lia)).
  replace ((j + 1) * 2 ^ s) with (j * 2 ^ s + 2 ^ s) in IH by lia. replace (N.to_nat (j + 1)) with (S (N.to_nat j)) in IH by lia. lia.
Qed.
Lemma span_range m : range m = span 1 m.
Proof. unfold range, span. rewrite <- seq_shift, map_map. apply map_ext. intro i. lia. Qed.
Lemma bound_ok m k : nsum (range (32 * 2 ^ N.of_nat k - 1)) (fun v => m / v) <= bound m k.
Proof.
  induction k as [|k IH].
  - change (32 * 2 ^ N.of_nat 0 - 1) with 31. unfold bound. cbn [seq fold_right]. lia.
  - assert (P : 0 < 2 ^ N.of_nat k) by (apply N.neq_0_lt_0, N.pow_nonzero; lia).
    replace (32 * 2 ^ N.of_nat (S k) - 1) with ((32 * 2 ^ N.of_nat k - 1) + 32 * 2 ^ N.of_nat k) by (rewrite Nat2N.inj_succ, N.pow_succ_r'; lia).
    rewrite span_range, span_app, <- span_range, nsum_app.
    replace (1 + (32 * 2 ^ N.of_nat k - 1)) with (32 * 2 ^ N.of_nat k) by lia.
    pose proof (span_blocks m (N.of_nat k) 32 32 ltac:(lia)) as S. change (N.of_nat 32) with 32 in S. change (N.to_nat 32) with 32%nat in S.
    unfold bound in *. rewrite (seq_S k 0), fold_right_app. cbn [fold_right]. rewrite Nat.add_0_l.
    assert (G : forall l a b, fold_right (fun s a => nsum (map N.of_nat (seq 32 32)) (block m (N.of_nat s)) + a) (a + b) l =
      fold_right (fun s a => nsum (map N.of_nat (seq 32 32)) (block m (N.of_nat s)) + a) b l + a).
    { clear. induction l as [|s l IH]; intros a b; cbn [fold_right]; [lia|]. rewrite IH. lia. }
    rewrite (G _ _ 0). lia.
Qed.

(** Refuted: of all pairs of nonzero 32-bit numbers, fewer need one division
    than the table says. *)
Theorem C162_table_refuted : forall ps : list (N * N), NoDup ps ->
  (forall u v, In (u, v) ps <-> 1 <= u < 2 ^ 32 /\ 1 <= v < 2 ^ 32) ->
  forall ones, NoDup ones -> (forall u v, In (u, v) ones <-> In (u, v) ps /\ divisions u v 1) ->
  (10 ^ 11 * Z.of_nat (length ones) < nth 1 kprob 0 * Z.of_nat (length ps))%Z.
Proof.
  intros ps D P ones D1 O. set (m := 2 ^ 32 - 1).
  assert (LP : N.of_nat (length ps) = m * m).
  { apply all_pairs; [exact D|]. intros u v. rewrite P. unfold m. lia. }
  assert (L1 : N.of_nat (length ones) <= nsum (range m) (fun v => m / v)).
  { apply dividing_pairs; [exact D1|]. intros u v I. apply O in I. destruct I as (I & Q). apply P in I. unfold m. split; [lia|]. split; [lia|].
    inversion Q; [assumption|subst; exfalso]. match goal with H : divisions v (u mod v) ?k |- _ => assert (k <> 0) by (clear -H; destruct H; lia) end. lia. }
  pose proof (bound_ok m 27) as B. change (32 * 2 ^ N.of_nat 27 - 1) with m in B.
  assert (C : 10 ^ 11 * bound m 27 < 539 * (m * m)) by (vm_compute; reflexivity).
  change (nth 1 kprob 0%Z) with 539%Z. clearbody m. zify. nia.
Qed.
(** Both lists exist. *)
Example C162_table_ex : exists ps ones : list (N * N), NoDup ps /\ NoDup ones /\
  (forall u v, In (u, v) ps <-> 1 <= u < 2 ^ 32 /\ 1 <= v < 2 ^ 32) /\ (forall u v, In (u, v) ones <-> In (u, v) ps /\ divisions u v 1).
Proof.
  exists (list_prod (range (2 ^ 32 - 1)) (range (2 ^ 32 - 1))), (filter (fun p => fst p mod snd p =? 0) (list_prod (range (2 ^ 32 - 1)) (range (2 ^ 32 - 1)))).
  assert (D : NoDup (list_prod (range (2 ^ 32 - 1)) (range (2 ^ 32 - 1)))) by (apply NoDup_list_prod; apply range_nodup).
  split; [exact D|]. split; [apply NoDup_filter, D|]. split; intros u v.
  - rewrite in_prod_iff, !in_range. lia.
  - rewrite filter_In. cbn [fst snd]. split; intros (I & Q); split; try exact I.
    + constructor; [|now apply N.eqb_eq]. apply in_prod_iff in I. rewrite !in_range in I. lia.
    + apply N.eqb_eq. inversion Q; [assumption|subst; exfalso]. match goal with H : divisions v (u mod v) ?k |- _ => assert (k <> 0) by (clear -H; destruct H; lia) end. lia.
Qed.

(** The expected counts add up to the number of samples. *)
Theorem C162_total : forall n ktbl, lsumR (steps_cells reals n ktbl) snd = IZR n.
Proof.
  intros n ktbl. unfold steps_cells. rewrite lsumR_map. cbn [snd nmul nint nlit reals]. rewrite lsumR_scale.
  assert (E : forall l : list nat, lsumR l (fun i => (IZR (nth i kprob 0%Z) / IZR (10 ^ 11))%R) = (IZR (fold_right (fun i a => (nth i kprob 0 + a)%Z) 0%Z l) / IZR (10 ^ 11))%R).
  { induction l as [|i l IH]; cbn [lsumR fold_right]; [unfold Rdiv; ring|]. rewrite IH, plus_IZR. unfold Rdiv. ring. }
  rewrite E. replace (fold_right (fun i a => (nth i kprob 0 + a)%Z) 0%Z (seq 0 41)) with (10 ^ 11)%Z by (vm_compute; reflexivity).
  field. apply not_0_IZR. discriminate.
Qed.
(** ... and so do the counts, if the table counts every sample. *)
Theorem C162_counts : forall n ktbl, length ktbl = 41%nat -> lsumR (steps_cells reals n ktbl) fst = IZR (Z.of_N (nsum ktbl (fun x => x))).
Proof.
  intros n ktbl L. unfold steps_cells. rewrite lsumR_map. cbn [fst nint reals].
  do 41 (destruct ktbl as [|? ktbl]; [discriminate L|]). destruct ktbl; [|discriminate L]. clear L.
  cbn [seq lsumR nth nsum]. rewrite !N2Z.inj_add, !plus_IZR. reflexivity.
Qed.
(** Every pair of samples counts in a cell that expects some. *)
Theorem C162_possible : forall n ktbl u v, (0 < n)%Z -> u <> 0 -> v <> 0 -> u < 2 ^ 32 -> v < 2 ^ 32 ->
  exists d, euclid 65 u v 0 = Ok (N.gcd u v, d) /\ divisions u v d /\
    let k := if 40 <? d then 40 else d in
    exists x y, nth_error (steps_cells reals n ktbl) (N.to_nat k) = Some (x, y) /\ (0 < y)%R.
Proof.
  intros n ktbl u v Hn U V BU BV. destruct (C39_euclid u v U V BU BV) as (d & E & D & _). exists d. split; [exact E|]. split; [exact D|]. cbv zeta.
  assert (D1 : 1 <= d) by (clear -D; destruct D; lia). assert (K : 1 <= (if 40 <? d then 40 else d) <= 40) by (destruct (N.ltb_spec 40 d); lia).
  set (k := if 40 <? d then 40 else d) in *. clearbody k. unfold steps_cells.
  exists (nint reals (Z.of_N (nth (N.to_nat k) ktbl 0))), (nmul reals (nint reals n) (nlit reals (nth (N.to_nat k) kprob 0%Z) (10 ^ 11))). split.
  - match goal with |- nth_error (map ?f _) _ = _ => apply (map_nth_error f) end. rewrite (nth_error_nth' _ 0%nat) by (rewrite seq_length; lia). rewrite seq_nth by lia. reflexivity.
  - cbn [nmul nint nlit reals]. apply Rmult_lt_0_compat; [now apply (IZR_lt 0)|]. apply Rdiv_lt_0_compat; [|now apply (IZR_lt 0)]. apply (IZR_lt 0).
    assert (F : Forall (fun i => (0 < nth i kprob 0)%Z) (seq 1 40)) by (repeat constructor). rewrite Forall_forall in F. apply F. apply in_seq. lia.
Qed.
(** The table has one peak, at 19 divisions. *)
Theorem C162_shape : length kprob = 41%nat /\ forall i, (i < 40)%nat ->
  if Nat.ltb i 19 then (nth i kprob 0 < nth (S i) kprob 0)%Z else (nth (S i) kprob 0 < nth i kprob 0)%Z.
Proof.
  split; [reflexivity|]. intros i I. assert (F : forallb (fun i => if Nat.ltb i 19 then (nth i kprob 0 <? nth (S i) kprob 0)%Z else (nth (S i) kprob 0 <? nth i kprob 0)%Z) (seq 0 40) = true) by (vm_compute; reflexivity).
  rewrite forallb_forall in F. specialize (F i). rewrite in_seq in F. specialize (F ltac:(lia)). destruct (Nat.ltb i 19); now apply Z.ltb_lt in F.
Qed.

(** If the numbers of divisions followed the table, the mean of the statistic,
    over all sequences of n samples, would be its number of degrees of freedom plus
    the probability of the cells left out, less than 5/n. *)
Definition step_counts {B} (cell : B -> nat) (l : list B) : list N :=
  map (fun i => N.of_nat (length (filter (fun o => Nat.eqb (cell o) i) l))) (seq 0 41).
Lemma counts_nth {B} (cell : B -> nat) l i : (i < 41)%nat -> IZR (Z.of_N (nth i (step_counts cell l) 0)) = number_in cell i l.
Proof.
  intro I. unfold step_counts. rewrite (nth_indep _ 0%N ((fun i => N.of_nat (length (filter (fun o => Nat.eqb (cell o) i) l))) 41%nat)) by (rewrite map_length, seq_length; exact I).
  rewrite (map_nth (fun i => N.of_nat (length (filter (fun o => Nat.eqb (cell o) i) l)))), seq_nth by exact I. rewrite nat_N_Z. unfold number_in. rewrite INR_IZR_INZ. reflexivity.
Qed.
Theorem C162_mean : forall (B : Type) (omega : list B) (cell : B -> nat) n all,
  omega <> [] -> NoDup omega -> (forall o, In o omega -> (cell o < 41)%nat) -> (1 <= n)%nat -> lists_samples omega n all ->
  (forall i, (i < 41)%nat -> cell_share omega cell i = (IZR (nth i kprob 0%Z) / IZR (10 ^ 11))%R) ->
  (forall l, In l all -> exists cells, steps_chisq reals Rge_bool (Z.of_nat n) (step_counts cell l) =
     Ok (cells, chisq_samples omega cell 41 n 5 l, sub32 (N.of_nat (terms omega cell 41 n 5)) 1)) /\
  average all (chisq_samples omega cell 41 n 5) = (INR (terms omega cell 41 n 5) - 1 + left_out omega cell 41 n 5)%R /\
  (INR n * left_out omega cell 41 n 5 < 5)%R.
Proof.
  intros B omega cell n all NE D C N1 A L.
  assert (E : forall l, steps_cells reals (Z.of_nat n) (step_counts cell l) = vtable omega cell 41 n l).
  { intro l. unfold steps_cells, vtable. apply map_ext_in. intros i I. apply in_seq in I. cbn [nint nmul nlit reals]. rewrite counts_nth by lia. rewrite L by lia. rewrite (INR_IZR_INZ n). reflexivity. }
  destruct (C124_mean B omega cell 41 n 5%R all NE D C ltac:(reflexivity) N1 ltac:(lra) A) as (V & M). split; [|split; [exact M|]].
  - intros l I. unfold steps_chisq. rewrite E. apply V, I.
  - unfold left_out. destruct (Rle_dec _ _); [rewrite Rmult_0_r; lra|lra].
Qed.
(** A law like that: 10^11 outcomes. *)
Definition table_law : list (nat * nat) := flat_map (fun i => map (@Datatypes.pair nat nat i) (seq 0 (Z.to_nat (nth i kprob 0%Z)))) (seq 0 41).
Lemma law_count (w : nat -> nat) i : forall k a, number_in fst i (flat_map (fun i => map (@Datatypes.pair nat nat i) (seq 0 (w i))) (seq a k)) = if (Nat.leb a i && Nat.ltb i (a + k))%bool then INR (w i) else 0%R.
Proof.
  assert (F : forall j m b, filter (fun o : nat * nat => Nat.eqb (fst o) i) (map (@Datatypes.pair nat nat j) (seq b m)) = if Nat.eqb j i then map (@Datatypes.pair nat nat j) (seq b m) else []).
  { intros j. induction m as [|m IH]; intro b; cbn [seq map filter fst]; [destruct (Nat.eqb j i); reflexivity|]. rewrite IH. destruct (Nat.eqb j i); reflexivity. }
  induction k as [|k IH]; intro a.
  - cbn [seq flat_map]. destruct (Nat.leb_spec a i), (Nat.ltb_spec i (a + 0)); try reflexivity. lia.
  - cbn [seq flat_map]. unfold number_in in *. rewrite filter_app, app_length, plus_INR, IH, F.
    destruct (Nat.eqb_spec a i) as [->|].
    + rewrite map_length, seq_length. destruct (Nat.leb_spec (S i) i); [lia|]. destruct (Nat.leb_spec i i), (Nat.ltb_spec i (i + S k)); try lia. cbn [andb]. lra.
    + cbn [length INR]. destruct (Nat.leb_spec (S a) i), (Nat.leb_spec a i), (Nat.ltb_spec i (S a + k)), (Nat.ltb_spec i (a + S k)); try lia; cbn [andb]; lra.
Qed.
Example C162_mean_ex : table_law <> [] /\ NoDup table_law /\ (forall o, In o table_law -> (fst o < 41)%nat) /\
  (forall i, (i < 41)%nat -> cell_share table_law fst i = (IZR (nth i kprob 0%Z) / IZR (10 ^ 11))%R).
Proof.
  assert (LEN : forall l, Forall (fun i => (0 <= nth i kprob 0)%Z) l ->
    INR (length (flat_map (fun i => map (@Datatypes.pair nat nat i) (seq 0 (Z.to_nat (nth i kprob 0%Z)))) l)) = IZR (fold_right (fun i a => (nth i kprob 0 + a)%Z) 0%Z l)).
  { induction 1 as [|i l H F IH]; cbn [flat_map fold_right]; [reflexivity|]. rewrite app_length, plus_INR, IH, plus_IZR, map_length, seq_length, INR_IZR_INZ, Z2Nat.id by exact H. reflexivity. }
  assert (P : Forall (fun i => (0 <= nth i kprob 0)%Z) (seq 0 41)) by (repeat constructor; discriminate).
  assert (T : INR (length table_law) = IZR (10 ^ 11)).
  { unfold table_law. rewrite (LEN _ P). f_equal. }
  split; [intro Z; rewrite Z in T; cbn [length INR] in T; apply (eq_IZR 0) in T; discriminate|]. split; [|split].
  - clear. unfold table_law. generalize (fun i => Z.to_nat (nth i kprob 0%Z)). intro w. pose proof (seq_NoDup 41 0) as D. induction D as [|i l N D IH]; cbn [flat_map]; [constructor|].
    apply nodup_app; [apply FinFun.Injective_map_NoDup; [intros a b Q; now injection Q|apply seq_NoDup]|exact IH|].
    intros (a, b) Q R. apply in_map_iff in Q. destruct Q as (c & Q & _). injection Q as <- <-. apply in_flat_map in R. destruct R as (j & J & R).
    apply in_map_iff in R. destruct R as (c2 & R & _). injection R as -> _. contradiction.
  - intros (a, b) I. unfold table_law in I. apply in_flat_map in I. destruct I as (j & J & I). apply in_seq in J. apply in_map_iff in I. destruct I as (c & I & _). injection I as <- <-. cbn [fst]. lia.
  - intros i I. unfold cell_share. rewrite T. unfold table_law. rewrite (law_count (fun i => Z.to_nat (nth i kprob 0%Z))). destruct (Nat.leb_spec 0 i), (Nat.ltb_spec i (0 + 41)); try lia. cbn [andb].
    rewrite INR_IZR_INZ, Z2Nat.id; [reflexivity|]. rewrite Forall_forall in P. apply P. apply in_seq. lia.
Qed.
Example C162_ex : steps_cells reals 0 [] <> [] /\ euclid 65 84 30 0 = Ok (6, 3) /\ nth 3 kprob 0%Z = 48421%Z /\ bound 31 0 = nsum (range 31) (fun v => 31 / v).
Proof. split; [discriminate|]. vm_compute. repeat split. Qed.

Print Assumptions C162_table_refuted.
Print Assumptions C162_total.
Print Assumptions C162_counts.
Print Assumptions C162_possible.
Print Assumptions C162_shape.
Print Assumptions C162_mean.
