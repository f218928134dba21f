(** Theorems C20-C22, C52, C53: assessment, histogram, chi-square bundling. *)
From Coq Require Import Reals Lra.
From Verif Require Import BaseLemmas DoubleLemmas DoubleLemmas2 ReportModel ReportSpec ReportLemmas ReportLemmas2 VtestLemmas.
From Flocq Require Import Core BinarySingleNaN.
Open Scope N_scope.

(** ** C20: assessment *)

(** [p] lies in one of the two tails cut off at [x].  [val] is the real value
    of a double (an infinity being a value beyond every finite one); [1 - x] is
    the double subtraction the program performs. *)
Definition in_tails (x p : double) : Prop := (val p < val x \/ val (dsub done x) < val p)%R.

(** The three cases, and moving p towards 1/2 never makes it worse. *)
Theorem C20_assessment : forall xfail xweak p,
  is_finite xfail = true -> is_finite xweak = true -> disnan p = false ->
  (assess xfail xweak p = FAILED <-> in_tails xfail p) /\
  (assess xfail xweak p = WEAK <-> ~ in_tails xfail p /\ in_tails xweak p) /\
  (assess xfail xweak p = PASSED <-> ~ in_tails xfail p /\ ~ in_tails xweak p) /\
  (forall q, disnan q = false -> (val p <= val q <= / 2 \/ / 2 <= val q <= val p)%R ->
     (score (assess xfail xweak p) <= score (assess xfail xweak q))%nat).
Proof.
  intros xf xw p Ff Fw Np.
  pose proof (flagged_val xf p Ff Np) as A. pose proof (flagged_val xw p Fw Np) as B.
  fold (in_tails xf p) in A. fold (in_tails xw p) in B.
  rewrite assess_flagged.
  assert (forall a b, a = true <-> b -> a = false <-> ~ b) as NN.
  { intros [|] b H; split; intro X; try discriminate; try tauto.
    intro Y. apply H in Y. discriminate. }
  pose proof (NN _ _ A) as A'. pose proof (NN _ _ B) as B'.
  split; [|split; [|split]].
  - destruct (flagged xf p), (flagged xw p); intuition discriminate.
  - destruct (flagged xf p), (flagged xw p); intuition discriminate.
  - destruct (flagged xf p), (flagged xw p); intuition discriminate.
  - intros q Nq O. rewrite <- assess_flagged. apply assess_mono; assumption.
Qed.
(** The default thresholds, and p-values on both sides of each. *)
Example C20_ex :
  map (fun p => score (assess (d_lit 1 1000000) (d_lit 5 1000) p))
      [dzero; d_lit 1 10000000; d_lit 1 1000; dhalf; d_lit 999 1000; d_lit 9999999 10000000; done]
    = [0; 0; 1; 2; 1; 0; 0]%nat.
Proof. vm_compute. reflexivity. Qed.

(** A p-value that is not a number is reported as PASSED, whatever the thresholds. *)
Theorem C52_nan_reported_passed_refuted : exists p, forall xfail xweak, assess xfail xweak p = PASSED.
Proof. exists dnan. intros xfail xweak. unfold assess, dlt, dgt. destruct (dsub done xfail), (dsub done xweak), xfail, xweak; reflexivity. Qed.

(** ** C21: histogram *)

(** The p-values the histogram is meant for. *)
Definition probabilities (l : list double) : Prop :=
  forall p, In p l -> is_finite p = true /\ (0 <= B2R p <= 1)%R.

Lemma output_histogram_ok : forall psamples input nbins fuel,
  psamples < 2 ^ 32 -> N.of_nat (length input) < 2 ^ 31 -> (1 <= nbins <= 2 ^ 30)%Z ->
  probabilities input -> (length input + 2 <= fuel)%nat ->
  exists bins vscale picture,
    output_histogram fuel psamples input nbins = Ok (bins, vscale, picture) /\
    length bins = Z.to_nat nbins /\ nsum bins = N.of_nat (length input) /\
    (forall k, (k < Z.to_nat nbins)%nat -> nth k bins 0 = N.of_nat (count (in_bin nbins k) input)) /\
    (forall k, nth k bins 0 < 20 * vscale) /\
    length picture = 20%nat /\
    (forall r j, (r < 20)%nat -> (j < Z.to_nat nbins)%nat ->
       nth j (nth r picture []) false = (N.of_nat (20 - r) <=? nth j bins 0 / vscale)).
Proof.
  intros psamples input nbins fuel Hp Hl Hn Hi Hf. unfold output_histogram.
  destruct (fill_ok nbins input (repeat 0 (Z.to_nat nbins)) 0 Hn Hi) as (bins & bm & E & L & Sm & Cn & Le & Bm).
  { apply repeat_length. }
  { assert (nsum (repeat 0 (Z.to_nat nbins)) = 0) as -> by (induction (Z.to_nat nbins); cbn; auto). lia. }
  { intro k. rewrite nth_repeat. lia. }
  assert (Z0 : nsum (repeat 0 (Z.to_nat nbins)) = 0) by (clear; induction (Z.to_nat nbins); cbn; auto).
  rewrite E. cbn [bind].
  assert (Bb : bm <= N.of_nat (length input)) by (clear - Bm Z0 Sm; lia).
  destruct fuel as [|fuel]; [lia|].
  destruct (rescale_ok fuel bm (first_scale psamples)) as (v & Ev & Hv & _); [lia| | |lia|].
  { unfold first_scale. assert ((psamples + 99) / 100 <= (2 ^ 32 + 99) / 100) by (apply N.div_le_mono; lia).
    assert ((2 ^ 32 + 99) / 100 = 42949673) as X by reflexivity. rewrite X in H. lia. }
  { lia. }
  rewrite Ev. cbn [bind]. exists bins, v, (map (stars bins v) (rev (seq 1 20))).
  split; [reflexivity|]. split; [exact L|]. split; [lia|]. split; [|split; [|split]].
  - intros k Hk. rewrite Cn by exact Hk. rewrite nth_repeat. lia.
  - intro k. specialize (Le k). lia.
  - reflexivity.
  - intros r j Hr Hj. rewrite (nth_indep _ [] (stars bins v 0)) by (cbn; lia).
    rewrite map_nth.
    replace (nth r (rev (seq 1 20)) 0%nat) with (20 - r)%nat.
    + apply stars_ok with bm; [lia|exact Hv|exact Le|lia].
    + rewrite rev_nth by (cbn; lia). rewrite seq_length, seq_nth by lia. lia.
Qed.

(** Whatever the number of bins, every p-value is counted in exactly one bin,
    and the picture (row [r] from the top stands for height [20 - r]) shows each
    bin's height in units of [vscale], never clipped. *)
Theorem C21_every_value_counted_once : forall psamples input nbins,
  psamples < 2 ^ 32 -> N.of_nat (length input) < 2 ^ 31 -> (1 <= nbins <= 2 ^ 30)%Z -> probabilities input ->
  exists bins vscale picture,
    (forall fuel, (length input + 2 <= fuel)%nat ->
       output_histogram fuel psamples input nbins = Ok (bins, vscale, picture)) /\
    length bins = Z.to_nat nbins /\ nsum bins = N.of_nat (length input) /\
    length picture = 20%nat /\
    forall j, (j < Z.to_nat nbins)%nat ->
      nth j bins 0 / vscale < 20 /\
      forall r, (r < 20)%nat ->
        (nth j (nth r picture []) false = true <-> N.of_nat (20 - r) <= nth j bins 0 / vscale).
Proof.
  intros psamples input nbins Hp Hl Hn Hi.
  destruct (output_histogram_ok psamples input nbins (length input + 2) Hp Hl Hn Hi (le_n _))
    as (bins & v & pic & E & L & Sm & _ & Lt & Lp & St).
  exists bins, v, pic. split; [|split; [exact L|split; [exact Sm|split; [exact Lp|]]]].
  - intros fuel Hf.
    destruct (output_histogram_ok psamples input nbins fuel Hp Hl Hn Hi Hf) as (b' & v' & p' & E' & _).
    rewrite E'. revert E E'. unfold output_histogram.
    destruct (fill (binscale dzero done nbins) nbins input (repeat 0 (Z.to_nat nbins)) 0) as [[bs bm]| | |]; cbn [bind]; try discriminate.
    assert (M : forall f g b x a c, rescale f b x = Ok a -> rescale g b x = Ok c -> a = c).
    { clear. induction f; intros [|g] b x a c H1 H2; cbn in *; try discriminate.
      destruct (mul32 20 x <=? b); [eauto|congruence]. }
    destruct (rescale (length input + 2) bm (first_scale psamples)) as [a| | |] eqn:R1; cbn [bind]; try discriminate.
    destruct (rescale fuel bm (first_scale psamples)) as [c| | |] eqn:R2; cbn [bind]; try discriminate.
    rewrite (M _ _ _ _ _ _ R1 R2). congruence.
  - intros j Hj. specialize (Lt j). split.
    + apply N.div_lt_upper_bound; lia.
    + intros r Hr. rewrite (St r j Hr Hj). apply N.leb_le.
Qed.

(** The ten bins every report uses are exactly the ten deciles. *)
Theorem C21_deciles : forall psamples input fuel bins vscale picture,
  psamples < 2 ^ 32 -> N.of_nat (length input) < 2 ^ 31 -> probabilities input ->
  (length input + 2 <= fuel)%nat ->
  output_histogram fuel psamples input 10 = Ok (bins, vscale, picture) ->
  forall k, (k < 10)%nat -> exists decile : double -> bool,
    (forall p, In p input ->
       (decile p = true <-> (INR k / 10 <= B2R p /\ (B2R p < INR (S k) / 10 \/ k = 9%nat))%R)) /\
    nth k bins 0 = N.of_nat (count decile input).
Proof.
  intros psamples input fuel bins vscale picture Hp Hl Hi Hf E k Hk.
  destruct (output_histogram_ok psamples input 10 fuel Hp Hl ltac:(lia) Hi Hf)
    as (b & v & pic & E' & L & Sm & Cn & _).
  rewrite E in E'. inversion E'; subst b v pic.
  exists (in_bin 10 k). split; [|apply Cn; exact Hk].
  intros p I. destruct (Hi p I) as [F B]. apply ten_bins; assumption.
Qed.
(** (The doubles nearest 0.3 and 0.7 lie below 3/10 and 7/10.) *)
Example C21_ex :
  match output_histogram 50 100 [dzero; d_lit 1 10; d_lit 3 10; d_lit 35 100; dhalf; d_lit 7 10; d_lit 9 10; done] 10 with
  | Ok (bins, v, _) => (bins, v) | _ => ([], 0) end = ([1; 1; 1; 1; 0; 1; 1; 0; 0; 2], 1).
Proof. vm_compute. reflexivity. Qed.
(** The hypothesis holds of those p-values. *)
Lemma in_unit : forall p, is_finite p = true -> dle dzero p = true -> dle p done = true ->
  is_finite p = true /\ (0 <= B2R p <= 1)%R.
Proof.
  intros p F A B. split; [exact F|]. pose proof (finite_nan p F).
  apply dle_val in A; [|reflexivity|assumption]. apply dle_val in B; [|assumption|reflexivity].
  rewrite (val_finite p F) in *. rewrite val_zero in A. rewrite val_one in B. lra.
Qed.
Example C21_ex_hyp : probabilities [dzero; d_lit 1 10; d_lit 3 10; d_lit 35 100; dhalf; d_lit 7 10; d_lit 9 10; done].
Proof.
  intros p I. apply in_unit.
  - assert (A : forallb (fun p => is_finite p) [dzero; d_lit 1 10; d_lit 3 10; d_lit 35 100; dhalf; d_lit 7 10; d_lit 9 10; done] = true) by (vm_compute; reflexivity).
    rewrite forallb_forall in A. exact (A p I).
  - assert (A : forallb (fun p => dle dzero p) [dzero; d_lit 1 10; d_lit 3 10; d_lit 35 100; dhalf; d_lit 7 10; d_lit 9 10; done] = true) by (vm_compute; reflexivity).
    rewrite forallb_forall in A. exact (A p I).
  - assert (A : forallb (fun p => dle p done) [dzero; d_lit 1 10; d_lit 3 10; d_lit 35 100; dhalf; d_lit 7 10; d_lit 9 10; done] = true) by (vm_compute; reflexivity).
    rewrite forallb_forall in A. exact (A p I).
Qed.

(** A p-value that is not a number makes the conversion to a bin index undefined. *)
Theorem C52_nan_histogram_refuted : exists p, forall fuel psamples rest nbins,
  exists why, output_histogram fuel psamples (p :: rest) nbins = UB why.
Proof.
  exists dnan. intros. exists "conversion to int"%string. unfold output_histogram. cbn [fill]. unfold bin_of.
  replace (ddiv dnan (binscale dzero done nbins)) with dnan by (destruct (binscale dzero done nbins); reflexivity).
  reflexivity.
Qed.

(** ** C22: chi-square bundling *)

(** Every cell whose expectation reaches the cutoff is used once, as it is; the
    others are added up into one cell, used if that reaches the cutoff; there is
    one degree of freedom less than cells used, unless preset. *)
Theorem C22_bundling : forall cells cutoff ndof, N.of_nat (length cells) < 2 ^ 31 ->
  exists cells', Vtest_eval cells cutoff ndof =
    Ok (cells', chisq_of (used cutoff cells),
        if ndof =? 0
        then if (length (used cutoff cells) =? 0)%nat then 2 ^ 32 - 1
             else N.of_nat (length (used cutoff cells) - 1)
        else ndof).
Proof.
  intros cells cutoff ndof B. exists (bundled cutoff cells cells).
  rewrite Vtest_eval_ok by exact B. do 2 f_equal. destruct (ndof =? 0); [|reflexivity].
  assert (L : (length (used cutoff cells) <= S (length cells))%nat).
  { unfold used. rewrite app_length. pose proof (filter_len _ (large cutoff) cells).
    destruct (_ && _); cbn [length]; lia. }
  destruct (Nat.eqb_spec (length (used cutoff cells)) 0) as [E|E].
  - rewrite E. reflexivity.
  - rewrite sub32_small by lia. lia.
Qed.

(** Observed counts are conserved: if the small cells are used at all, the
    observed counts of the cells used add up to the same total as those of the
    input (integers below 2^53, so exactly). *)
Theorem C22_counts_conserved : forall cutoff cells counts,
  map fst cells = map d_of_Z counts -> (forall n, In n counts -> 0 <= n)%Z -> (zsum counts <= 2 ^ 53)%Z ->
  let small := filter (fun c => negb (large cutoff c)) cells in
  small = [] \/ large cutoff (bundle small) = true ->
  exists counts', map fst (used cutoff cells) = map d_of_Z counts' /\ zsum counts' = zsum counts.
Proof. intros cutoff cells counts E P B small T. exact (counts_conserved cutoff cells counts E P B T). Qed.

Definition ex_cells : list (double * double) :=
  [(d_of_Z 3, d_of_Z 2); (d_of_Z 9, d_of_Z 10); (d_of_Z 4, d_of_Z 4); (d_of_Z 8, d_of_Z 8)].
Example C22_ex : map (fun c => (dtrunc (fst c), dtrunc (snd c))) (used (d_of_Z 5) ex_cells)
    = [(Some 9, Some 10); (Some 8, Some 8); (Some 7, Some 6)]%Z /\
  match Vtest_eval ex_cells (d_of_Z 5) 0 with
  | Ok (_, c, n) => deq c (dadd (d_lit 1 10) (d_lit 1 6)) && (n =? 2) | _ => false end = true.
Proof. split; vm_compute; reflexivity. Qed.

(** The total over the cells used is not always that of the input: a tail that
    stays below the cutoff is left out (one cell of 3 observed, 2 expected). *)
Theorem C53_tail_dropped_refuted : exists cells cutoff,
  zsum (map (fun c => match dtrunc (fst c) with Some z => z | None => 0%Z end) cells) = 24%Z /\
  zsum (map (fun c => match dtrunc (fst c) with Some z => z | None => 0%Z end) (used cutoff cells)) = 21%Z.
Proof.
  exists [(d_of_Z 3, d_of_Z 2); (d_of_Z 9, d_of_Z 10); (d_of_Z 12, d_of_Z 12)], (d_of_Z 5).
  split; vm_compute; reflexivity.
Qed.

(** When no cell reaches the cutoff the degrees of freedom wrap to 2^32 - 1. *)
Theorem C53_ndof_wraps_refuted : exists cells cutoff cells' chisq,
  Vtest_eval cells cutoff 0 = Ok (cells', chisq, 4294967295).
Proof.
  exists [(done, done)], (d_of_Z 5).
  destruct (C22_bundling [(done, done)] (d_of_Z 5) 0 eq_refl) as (c & E).
  exists c. eexists. rewrite E.
  replace (length (used (d_of_Z 5) [(done, done)])) with 0%nat by (vm_compute; reflexivity).
  reflexivity.
Qed.

(** Evaluating the same vector again does not give the same result: the bundle
    has replaced the first small cell, and the other small cells are counted a
    second time beside it. *)
Theorem C53_not_repeatable_refuted : exists cells cutoff,
  match Vtest_eval cells cutoff 0 with
  | Ok (c1, x1, _) =>
    match Vtest_eval c1 cutoff 0 with Ok (_, x2, _) => negb (deq x1 x2) | _ => false end
  | _ => false end = true.
Proof. exists [(d_of_Z 3, d_of_Z 2); (d_of_Z 4, d_of_Z 2); (d_of_Z 4, d_of_Z 2); (d_of_Z 10, d_of_Z 10)], (d_of_Z 4). vm_compute. reflexivity. Qed.

Print Assumptions C20_assessment.
Print Assumptions C52_nan_reported_passed_refuted.
Print Assumptions C21_every_value_counted_once.
Print Assumptions C21_deciles.
Print Assumptions C52_nan_histogram_refuted.
Print Assumptions C22_bundling.
Print Assumptions C22_counts_conserved.
Print Assumptions C53_tail_dropped_refuted.
Print Assumptions C53_ndof_wraps_refuted.
Print Assumptions C53_not_repeatable_refuted.
