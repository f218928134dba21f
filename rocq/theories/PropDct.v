(** Theorems C125, C126, C127: the discrete cosine transform test. *)
From Coq Require Import Lia Lra.
From Verif Require Import BaseLemmas KsLemmas3 OpermReal RunsArcs MissingLaw DnaBlock DctLaw.
From Verif Require Export DctSpec.
Open Scope R_scope.

(** ** C125: the transform *)

(** For every vector whose length is at most 4 or a power of two, the result is
    the discrete cosine transform of type II of its words. *)
Theorem C125_transform : forall fft l, transforms fft -> usable (length l) ->
  transform fft l = Ok (map (dct2 (length l) (word l)) (seq 0 (length l))).
Proof. exact fDCT2_fft_ok. Qed.
(** The direct method gives the same, for every length. *)
Theorem C125_direct : forall l, l <> [] -> fDCT2 reals cos PI l (length l) = Ok (map (dct2 (length l) (word l)) (seq 0 (length l))).
Proof. exact fDCT2_ok. Qed.

(** The inverse transform (not used by the test) is one for even lengths; for odd
    lengths its result is too large by n/(n-1), as n/2 is rounded down. *)
Theorem C125_inverse : forall l, (2 <= length l)%nat ->
  iDCT2 reals cos PI (map (dct2 (length l) (word l)) (seq 0 (length l))) (length l) =
  Ok (map (fun i => INR (length l) / INR (2 * (length l / 2)) * word l i) (seq 0 (length l))).
Proof.
  intros l L. set (n := length l) in *. assert (P : 0 < INR n) by (apply lt_0_INR; lia). assert (H : (1 <= n / 2)%nat) by (apply Nat.div_le_lower_bound; lia).
  assert (PH : 0 < INR (n / 2)) by (apply lt_0_INR; lia). unfold iDCT2. set (X := map (dct2 n (word l)) (seq 0 n)).
  assert (LX : length X = n) by (unfold X; now rewrite map_length, seq_length).
  apply (for_fill 0); [apply repeat_length|]. intros i out I LO _.
  rewrite (for_rsum n _ (fun j => dct2 n (word l) j * cos (PI * (INR i + 1 / 2) * INR j / INR n))).
  2:{ intros j s J. rewrite (get_nat 0) by (change (num reals) with R; lia). cbn [bind]. f_equal. cbn [nadd nmul ndiv nint nlit reals]. as_reals. f_equal. unfold X. rewrite map_seq_nth by exact J.
    f_equal. f_equal. rewrite <- !INR_IZR_INZ. field. lra. }
  cbn [bind]. change (num reals) with R. rewrite (aget_ok X 0 0) by lia. cbn [bind]. rewrite (put_nat (T := R)) by lia. do 2 f_equal. cbn [nadd nsub ndiv nint reals]. as_reals.
  unfold X. change (Z.to_nat 0) with 0%nat. rewrite map_seq_nth by lia. rewrite <- INR_IZR_INZ, Rplus_0_l.
  assert (E : rsum n (fun j => dct2 n (word l) j * cos (PI * (INR i + 1 / 2) * INR j / INR n)) - dct2 n (word l) 0 / 2 = INR n / 2 * word l i).
  { transitivity (rsum n (fun m => word l m * (rsum n (fun j => cos (PI * (INR m + 1 / 2) * INR j / INR n) * cos (PI * (INR i + 1 / 2) * INR j / INR n)) - 1 / 2))).
    - replace (dct2 n (word l) 0 / 2) with (rsum n (fun m => 1 / 2 * word l m)).
      2:{ rewrite <- rsum_scale. unfold dct2. rewrite (rsum_ext n (fun j => word l j * _) (word l)); [field|]. intros j _. cbn [INR]. unfold Rdiv at 1. rewrite Rmult_0_r, Rmult_0_l, cos_0. ring. }
      rewrite (rsum_ext n (fun j => dct2 n (word l) j * _) (fun j => rsum n (fun m => word l m * (cos (PI * (INR m + 1 / 2) * INR j / INR n) * cos (PI * (INR i + 1 / 2) * INR j / INR n))))).
      2:{ intros j _. unfold dct2. rewrite Rmult_comm, rsum_scale. apply rsum_ext. intros; ring. }
      rewrite rsum_swap, <- rsum_minus. apply rsum_ext. intros m _. rewrite <- rsum_scale. field.
    - rewrite (rsum_single n _ i I).
      + rewrite cos_rows by assumption. rewrite Nat.eqb_refl. field.
      + intros m M NE. rewrite cos_rows by assumption. rewrite (proj2 (Nat.eqb_neq m i) NE). ring. }
  rewrite E. rewrite mult_INR. cbn [INR]. field. lra.
Qed.
Corollary C125_inverse_even : forall l m, length l = (2 * m)%nat -> (1 <= m)%nat ->
  iDCT2 reals cos PI (map (dct2 (length l) (word l)) (seq 0 (length l))) (length l) = Ok (map (word l) (seq 0 (length l))).
Proof.
  intros l m L M. rewrite C125_inverse by lia. f_equal. apply map_ext. intro i. rewrite L. replace (2 * m / 2)%nat with m by (rewrite Nat.mul_comm, Nat.div_mul; lia).
  assert (0 < INR (2 * m)) by (apply lt_0_INR; lia). field. lra.
Qed.
Theorem C125_inverse_odd_refuted : iDCT2 reals cos PI (map (dct2 3 (word [2; 4; 6]%N)) (seq 0 3)) 3 <> Ok (map (word [2; 4; 6]%N) (seq 0 3)).
Proof.
  intro E. pose proof (C125_inverse [2; 4; 6]%N ltac:(cbn; lia)) as F. cbn [length] in F. rewrite E in F. injection F as F _ _. revert F. unfold word. cbn. lra.
Qed.
(** An FFT exists, and a vector with known transform. *)
Definition real_part (d : list R) : list R := map (fun k => rsum (length d) (fun m => nth m d 0 * cos (2 * PI * INR k * INR m / INR (length d)))) (seq 0 (length d)).
Lemma dft_transforms : transforms (fun d => Ok (real_part d)).
Proof.
  intros e d L. eexists. split; [reflexivity|]. unfold real_part. split; [now rewrite map_length, seq_length|]. intros k K. apply (map_seq_nth 0 (fun k => rsum (length d) (fun m => nth m d 0 * cos (2 * PI * INR k * INR m / INR (length d))))). pose proof (Nat.pow_nonzero 2 e). lia.
Qed.
Example C125_ex : usable 8 /\ usable 3 /\ transform (fun d => Ok (real_part d)) [7; 7; 7; 7; 7; 7; 7; 7]%N = Ok [56; 0; 0; 0; 0; 0; 0; 0].
Proof.
  assert (U : usable 8) by (right; exists 3%nat; reflexivity). split; [exact U|]. split; [left; lia|]. rewrite (C125_transform _ [7; 7; 7; 7; 7; 7; 7; 7]%N dft_transforms U). cbn [length]. f_equal.
  rewrite (map_ext_in _ (fun i => if (i =? 0)%nat then 56 else 0)); [reflexivity|]. intros i I. apply in_seq in I. unfold dct2.
  assert (W : forall j, (j < 8)%nat -> word [7; 7; 7; 7; 7; 7; 7; 7]%N j = 7) by (intros j J; do 8 (destruct j as [|j]; [reflexivity|]); lia).
  rewrite (rsum_ext 8 _ (fun j => 7 * cos (PI * (INR j + 1 / 2) * INR i / INR 8))) by (intros j J; now rewrite W by exact J). rewrite <- rsum_scale.
  destruct (Nat.eqb_spec i 0) as [->|N]; [|rewrite cos_half_zero by lia; ring]. rewrite (rsum_ext 8 _ (fun _ => 1)); [rewrite rsum_const; cbn; ring|].
  intros j _. cbn [INR]. unfold Rdiv. rewrite Rmult_0_r, Rmult_0_l. apply cos_0.
Qed.

(** ** C126: the law of the transform *)
Lemma adjusted_ok fft w l : transforms fft -> usable (length l) -> adjusted fft w l =
  Ok (map (fun i => if (i =? 0)%nat then (dct2 (length l) (word l) 0 - dct_mean reals (length l) w) / sqrt 2 else dct2 (length l) (word l) i) (seq 0 (length l))).
Proof.
  intros TR U. assert (P : (0 < length l)%nat) by (destruct U as [U|(e & ->)]; [lia|]; pose proof (Nat.pow_nonzero 2 e); lia).
  unfold adjusted, dct_of. change (fDCT2_fft reals cos PI fft l (length l)) with (transform fft l). rewrite (C125_transform fft l TR U). cbn [bind].
  destruct (length l) as [|n]; [lia|]. cbn [seq map]. cbn [aget aset Z.ltb Z.compare Z.to_nat nth_error bind length Nat.ltb Nat.leb set_nth]. unfold aget, aset.
  cbn [Z.ltb Z.compare Z.to_nat nth_error bind length Nat.ltb Nat.leb set_nth Nat.eqb orb]. do 2 f_equal.
  apply map_ext_in. intros i I. apply in_seq in I. destruct i; [lia|reflexivity].
Qed.
Definition cf (n i j : nat) : R := if (i =? 0)%nat then / sqrt 2 else cos (PI * (INR j + 1 / 2) * INR i / INR n).
Lemma v_half w : (1 <= w)%N -> IZR (dct_v w) = qw w / 2.
Proof.
  intro W. unfold dct_v, qw. replace (Z.of_N w) with (Z.of_N w - 1 + 1)%Z at 2 by lia. rewrite Z.pow_add_r by lia. rewrite mult_IZR. change (2 ^ 1)%Z with 2%Z. field.
Qed.
Lemma sqrt2_pos : 0 < sqrt 2. Proof. apply sqrt_lt_R0. lra. Qed.
Lemma coefficient_form fft w l i : transforms fft -> usable (length l) -> (1 <= w)%N -> (i < length l)%nat ->
  coefficient fft w i l = form (length l) (cf (length l) i) l - mu w * rsum (length l) (cf (length l) i).
Proof.
  intros TR U W I. unfold coefficient. rewrite adjusted_ok by assumption. rewrite map_seq_nth by exact I. set (n := length l) in *.
  assert (P : 0 < INR n) by (apply lt_0_INR; lia). pose proof sqrt2_pos. unfold form, cf. destruct (Nat.eqb_spec i 0) as [->|N].
  - rewrite rsum_const. rewrite <- rsum_scale. unfold dct2. rewrite (rsum_ext n (fun j => word l j * _) (word l)).
    2:{ intros j _. cbn [INR]. unfold Rdiv at 1. rewrite Rmult_0_r, Rmult_0_l, cos_0. ring. }
    unfold dct_mean. cbn [nmul nsub nint nlit reals]. rewrite v_half by exact W. rewrite <- INR_IZR_INZ. unfold mu. field. lra.
  - rewrite cos_half_zero by lia. rewrite Rmult_0_r, Rminus_0_r. unfold dct2. apply rsum_ext. intros; ring.
Qed.
(** Over all vectors of len words of w bits: every coefficient has mean 0, the
    coefficients are uncorrelated, and their variance is the square of the
    program's standard deviation, less a 4^w-th of it.  In particular the factor
    sqrt 2 of the first coefficient ("experimental + guess") is right. *)
Theorem C126_law : forall fft w len i k, transforms fft -> usable len -> (1 <= w)%N -> (i < len)%nat -> (k < len)%nat ->
  let all := matrices w len in
  average all (coefficient fft w i) = 0 /\
  average all (fun l => coefficient fft w i l * coefficient fft w k l) = if (i =? k)%nat then (1 - / 4 ^ N.to_nat w) * dct_sd reals len w ^ 2 else 0.
Proof.
  intros fft w len i k TR U W I K all.
  assert (C : forall i l, In l all -> (i < len)%nat -> coefficient fft w i l = form len (cf len i) l - mu w * rsum len (cf len i)).
  { intros i0 l L I0. apply in_matrices in L. destruct L as (<- & _). now apply coefficient_form. }
  split.
  - rewrite (average_ext all _ (fun l => form len (cf len i) l - mu w * rsum len (cf len i))) by (intros; now apply C). apply form_mean.
  - rewrite (average_ext all _ (fun l => (form len (cf len i) l - mu w * rsum len (cf len i)) * (form len (cf len k) l - mu w * rsum len (cf len k)))) by (intros; now rewrite !C).
    unfold all. rewrite form_cov. assert (P : 0 < INR len) by (apply lt_0_INR; lia). pose proof sqrt2_pos as S2. assert (SS : sqrt 2 * sqrt 2 = 2) by (apply sqrt_sqrt; lra).
    assert (E : rsum len (fun j => cf len i j * cf len k j) = if (i =? k)%nat then INR len / 2 else 0).
    { unfold cf. destruct (Nat.eqb_spec i 0) as [->|I0]; destruct (Nat.eqb_spec k 0) as [->|K0].
      - rewrite Nat.eqb_refl, rsum_const. assert (/ sqrt 2 * / sqrt 2 = / 2) as -> by (rewrite <- Rinv_mult, SS; reflexivity). field.
      - rewrite (proj2 (Nat.eqb_neq 0 k)) by lia. rewrite <- rsum_scale, cos_half_zero by lia. ring.
      - rewrite (proj2 (Nat.eqb_neq i 0)) by lia. rewrite (rsum_ext _ _ (fun j => / sqrt 2 * cos (PI * (INR j + 1 / 2) * INR i / INR len))) by (intros; ring). rewrite <- rsum_scale, cos_half_zero by lia. ring.
      - rewrite cos_product by assumption. rewrite (proj2 (Nat.eqb_neq i 0)) by exact I0. reflexivity. }
    rewrite E. destruct (i =? k)%nat; [|ring]. unfold dct_sd. cbn [nmul nsqrt ndiv nlit nint reals]. rewrite v_half by exact W. rewrite <- INR_IZR_INZ.
    assert (Q : 0 < qw w) by apply qw_pos. assert (Q4 : 4 ^ N.to_nat w = qw w * qw w).
    { unfold qw. replace (Z.of_N w) with (Z.of_nat (N.to_nat w)) by lia. rewrite <- (pow_IZR 2 (N.to_nat w)). rewrite <- Rpow_mult_distr. f_equal; ring. }
    rewrite Q4. replace ((sqrt (1 / 1 / (6 / 1) * INR len) * (qw w / 2)) ^ 2) with (sqrt (1 / 1 / (6 / 1) * INR len) * sqrt (1 / 1 / (6 / 1) * INR len) * (qw w * qw w / 4)) by field.
    rewrite sqrt_sqrt by lra. field. lra.
Qed.
(** With 32-bit words the variance is right to 2^-64; 8 bits, 15 parts in a million. *)
Example C126_ex : 1 - / 4 ^ N.to_nat 8 = 65535 / 65536 /\ dct_sd reals 24 1 = 2 /\ In [3; 0; 255; 17]%N (matrices 8 4) /\ coefficient (fun d => Ok (real_part d)) 8 0 [3; 0; 255; 17]%N = (275 - 510) / sqrt 2.
Proof.
  split; [change (N.to_nat 8) with 8%nat; field|]. split.
  { unfold dct_sd. cbn [nmul nsqrt ndiv nlit nint reals]. change (dct_v 1) with 1%Z. replace (1 / 1 / (6 / 1) * IZR (Z.of_nat 24)) with (2 * 2) by (cbn; field). rewrite sqrt_square by lra. as_reals. ring. }
  split; [apply in_matrices; split; [reflexivity|]; intros x [<-|[<-|[<-|[<-|[]]]]]; reflexivity|].
  unfold coefficient. rewrite (adjusted_ok _ 8 [3; 0; 255; 17]%N dft_transforms) by (left; cbn; lia). cbn [length seq map nth Nat.eqb]. f_equal. unfold dct2, dct_mean, word. cbn [rsum nth nmul nsub nint nlit reals Z.of_N].
  change (IZR (dct_v 8)) with 128. change (INR 0) with 0. unfold Rdiv. rewrite !Rmult_0_r, !Rmult_0_l, cos_0. cbn. lra.
Qed.

(** ** C127: the test *)
Lemma position_ok v : v <> [] -> exists i m, dct_position reals (length v) v = Ok (Z.of_nat i, m) /\ peak v i.
Proof.
  intro NE. assert (P : (0 < length v)%nat) by (destruct v; [congruence|cbn; lia]). unfold dct_position.
  destruct (for_inv (fun j s => exists i, fst s = Z.of_nat i /\ (Z.of_nat i < Z.max 1 j)%Z /\ 0 <= snd s /\ (forall k, (Z.of_nat k < j)%Z -> Rabs (nth k v 0) <= snd s) /\
      (forall k, (k < i)%nat -> Rabs (nth k v 0) < snd s) /\ (snd s = Rabs (nth i v 0) \/ (i = 0%nat /\ snd s = 0)))
    (fun j s => do d <- aget v j ;; if ngt reals (nabs reals d) (snd s) then Ok (j, nabs reals d) else Ok s) (length v) 0 (0%Z, 0)) as ((i', m) & E & i & EI & I & M0 & A & B & C).
  - exists 0%nat. cbn [fst snd]. split; [reflexivity|]. split; [lia|]. split; [lra|]. split; [intros; lia|]. split; [intros; lia|]. right. auto.
  - intros j (i', m) J (i & EI & I & M0 & A & B & C). cbn [fst snd] in *. change (num reals) with R in *. rewrite (get_ok (T := R) 0) by lia. cbn [bind ngt nabs reals].
    destruct (Rlt_dec m (Rabs (nth (Z.to_nat j) v 0))) as [L|L].
    + eexists. split; [reflexivity|]. exists (Z.to_nat j). cbn [fst snd]. split; [lia|]. split; [lia|]. split; [lra|]. split; [|split; [|now left]].
      * intros k K. destruct (Z.eq_dec (Z.of_nat k) j) as [<-|N]; [rewrite Nat2Z.id; lra|]. specialize (A k ltac:(lia)). lra.
      * intros k K. specialize (A k ltac:(lia)). lra.
    + eexists. split; [reflexivity|]. exists i. cbn [fst snd]. split; [exact EI|]. split; [lia|]. split; [exact M0|]. split; [|split; [exact B|exact C]].
      intros k K. destruct (Z.eq_dec (Z.of_nat k) j) as [<-|N]; [rewrite Nat2Z.id in L; lra|]. apply A. lia.
  - cbn [fst snd] in *. change (num reals) with R in *. exists i, m. split; [rewrite <- EI; exact E|].
    assert (EM : m = Rabs (nth i v 0)). { destruct C as [C|(-> & ->)]; [exact C|]. specialize (A 0%nat ltac:(lia)). pose proof (Rabs_pos (nth 0 v 0)). lra. }
    split; [lia|]. rewrite <- EM. split; [intros k K; apply A; lia|exact B].
Qed.
Lemma peak_unique v i k : peak v i -> peak v k -> i = k.
Proof.
  intros (I & A & B) (K & C & D). destruct (Nat.lt_trichotomy i k) as [L|[L|L]]; [|exact L|].
  - specialize (D i L). specialize (A k K). lra.
  - specialize (B k L). specialize (C i I). lra.
Qed.
Lemma adjusted_some fft w l : transforms fft -> usable (length l) -> exists v, adjusted fft w l = Ok v /\ length v = length l /\ v <> [].
Proof.
  intros TR U. rewrite adjusted_ok by assumption. eexists. split; [reflexivity|]. rewrite map_length, seq_length. split; [reflexivity|].
  destruct U as [U|(e & ->)]; [destruct (length l); [lia|discriminate]|]. pose proof (Nat.pow_nonzero 2 e). destruct (2 ^ e)%nat; [lia|discriminate].
Qed.
Lemma Forall2_length' {X Y} (Q : X -> Y -> Prop) l m : Forall2 Q l m -> length l = length m.
Proof. induction 1; cbn; auto. Qed.
Definition tally (ps : list nat) (i : nat) : R := INR (count_occ Nat.eq_dec ps i).
(** The primary method counts, for every position, the vectors whose adjusted
    transform is largest there (first there, if several are largest). *)
Theorem C127_primary : forall fft len w inputs, transforms fft -> usable len -> (forall l, In l inputs -> length l = len) ->
  exists ps, Forall2 (fun l p => exists v, adjusted fft w l = Ok v /\ peak v p) inputs ps /\
  primary fft len w inputs = Ok (map (tally ps) (seq 0 len)) /\ rsum len (tally ps) = INR (length inputs).
Proof.
  intros fft len w inputs TR U H. unfold primary, dct_primary.
  assert (G : forall qs, (forall q, In q qs -> (q < len)%nat) -> exists ps, Forall2 (fun l p => exists v, adjusted fft w l = Ok v /\ peak v p) inputs ps /\
    fold_left (fun counts input => do counts <- counts ;; do dct <- dct_of reals cos PI fft len w input ;; do s <- dct_position reals len dct ;;
      do n <- aget counts (fst s) ;; aset counts (fst s) (nadd reals n (nint reals 1))) inputs (Ok (map (tally qs) (seq 0 len))) = Ok (map (tally (qs ++ ps)) (seq 0 len)) /\ forall p, In p ps -> (p < len)%nat).
  { induction inputs as [|l inputs IH]; intros qs Q.
    - exists []. split; [constructor|]. rewrite app_nil_r. split; [reflexivity|intros ? []].
    - assert (LL : length l = len) by (apply H; now left). destruct (adjusted_some fft w l TR ltac:(now rewrite LL)) as (v & EV & LV & NV).
      destruct (position_ok v NV) as (i & m & EP & PK). destruct (IH (fun l' L' => H l' (or_intror L')) (qs ++ [i])) as (ps & F & E & B).
      { intros q I. apply in_app_iff in I. destruct I as [I|[<-|[]]]; [now apply Q|]. destruct PK as (I & _). lia. }
      exists (i :: ps). split; [constructor; [exists v; auto|exact F]|]. split.
      + cbn [fold_left bind]. assert (EV' : dct_of reals cos PI fft len w l = Ok v) by (rewrite <- LL; exact EV). rewrite EV'. cbn [bind].
        assert (EP' : dct_position reals len v = Ok (Z.of_nat i, m)) by (rewrite <- LL, <- LV; exact EP). rewrite EP'. cbn [bind fst]. assert (I : (i < len)%nat) by (destruct PK as (I & _); lia).
        rewrite (get_nat 0) by (rewrite map_length, seq_length; exact I). cbn [bind]. rewrite (put_nat (T := R)) by (rewrite map_length, seq_length; exact I).
        replace (qs ++ i :: ps) with ((qs ++ [i]) ++ ps) by (rewrite <- app_assoc; reflexivity). rewrite <- E. f_equal. f_equal.
        apply (list_map 0); [now rewrite set_nth_length, map_length, seq_length|]. intros k K. unfold tally. rewrite count_occ_app, plus_INR. cbn [count_occ].
        destruct (Nat.eq_dec i k) as [<-|N].
        * rewrite nth_set_nth_eq by (rewrite map_length, seq_length; exact I). rewrite map_seq_nth by exact I. reflexivity.
        * rewrite nth_set_nth_ne by lia. rewrite map_seq_nth by exact K. unfold tally. cbn [INR]. ring.
      + intros p [<-|I]; [destruct PK as (I & _); lia|now apply B]. }
  destruct (G [] ltac:(intros ? [])) as (ps & F & E & B). exists ps. split; [exact F|]. split.
  - replace (repeat (nint reals 0) len) with (map (tally []) (seq 0 len)); [exact E|]. symmetry. apply (list_map 0); [apply repeat_length|]. intros i I. apply nth_repeat_0.
  - rewrite (Forall2_length' _ _ _ F). clear - B. unfold tally. induction ps as [|p ps IH]; [cbn [count_occ INR length]; apply rsum_zero|].
    cbn [length]. rewrite S_INR, <- IH by (intros; apply B; now right).
    rewrite (rsum_ext len _ (fun i => INR (count_occ Nat.eq_dec ps i) + (if (i =? p)%nat then 1 else 0))).
    + rewrite <- rsum_plus. f_equal. apply (rsum_point len p (fun _ => 1)). apply B. now left.
    + intros i _. cbn [count_occ]. destruct (Nat.eq_dec p i) as [<-|N]; [rewrite Nat.eqb_refl, S_INR; ring|]. rewrite (proj2 (Nat.eqb_neq i p)) by lia. ring.
Qed.
(** The fallback turns every coefficient into a p-value, in order. *)
Definition pvalues_of (fft : list R -> outcome (list R)) (P : R -> R -> R) (len : nat) (w : N) (inputs : list (list N)) : list R :=
  flat_map (fun l => map (fun i => P (0 - coefficient fft w i l / dct_sd reals len w) 1) (seq 0 len)) inputs.
Theorem C127_fallback : forall fft P len w inputs, transforms fft -> usable len -> (forall l, In l inputs -> length l = len) ->
  fallback fft P len w inputs = Ok (pvalues_of fft P len w inputs).
Proof.
  intros fft P len w inputs TR U H. unfold fallback, dct_fallback.
  assert (G : forall qs, fold_left (fun ps input => do ps <- ps ;; do dct <- dct_of reals cos PI fft len w input ;; do p <- dct_pvalues reals P len w dct ;; Ok (ps ++ p)) inputs (Ok qs) =
    Ok (qs ++ pvalues_of fft P len w inputs)).
  { induction inputs as [|l inputs IH]; intro qs; [cbn; now rewrite app_nil_r|]. assert (LL : length l = len) by (apply H; now left).
    destruct (adjusted_some fft w l TR ltac:(now rewrite LL)) as (v & EV & LV & _). cbn [fold_left bind].
    assert (EV' : dct_of reals cos PI fft len w l = Ok v) by (rewrite <- LL; exact EV). rewrite EV'. cbn [bind].
    assert (EP : dct_pvalues reals P len w v = Ok (map (fun i => P (0 - coefficient fft w i l / dct_sd reals len w) 1) (seq 0 len))).
    { unfold dct_pvalues. rewrite LL in LV.
      destruct (for_inv (fun j ps => ps = map (fun i => P (0 - nth i v 0 / dct_sd reals len w) 1) (seq 0 (Z.to_nat j)))
        (fun i ps => do d <- aget v i ;; Ok (ps ++ [P (nsub reals (nlit reals 0 1) (ndiv reals d (dct_sd reals len w))) (nlit reals 1 1)])) len 0 []) as (ps & E & F).
      - reflexivity.
      - intros j ps J ->. rewrite (get_ok (T := R) 0) by lia. cbn [bind]. eexists. split; [reflexivity|]. replace (Z.to_nat (j + 1)) with (S (Z.to_nat j)) by lia.
        rewrite seq_S, map_app. cbn [map Nat.add]. f_equal. f_equal. cbn [nsub nlit ndiv reals]. f_equal; [|field]. f_equal. field.
      - change (num reals) with R in *. rewrite E, F, Z.add_0_l, Nat2Z.id. f_equal. apply map_ext. intro i. unfold coefficient. now rewrite EV. }
    rewrite EP. cbn [bind]. rewrite IH by (intros l' L'; apply H; now right). cbn [pvalues_of flat_map]. now rewrite app_assoc. }
  exact (G []).
Qed.
(** The whole test, once the vectors have been read (C48): with more than five
    vectors per position the chi-square of the counts against equal shares, with
    len - 1 degrees of freedom; otherwise the Kolmogorov-Smirnov test of all
    the p-values. *)
Theorem C127_test : forall fft P Q srt kst g w ntuple tsamples c inputs c',
  let len := (if (ntuple =? 0)%nat then 256 else ntuple)%nat in transforms fft -> usable len -> (5 * N.of_nat len < 2 ^ 32)%N ->
  dct_inputs g len w tsamples c = Ok (inputs, c') -> (forall l, In l inputs -> length l = len) -> length inputs = tsamples ->
  let test := dab_dct reals cos PI fft P Q srt kst g w ntuple tsamples c in
  ((5 * len < tsamples)%nat -> exists ps, Forall2 (fun l p => exists v, adjusted fft w l = Ok v /\ peak v p) inputs ps /\
     test = Ok (Q ((INR len - 1) / 2) (rsum len (fun i => (tally ps i - INR tsamples / INR len) ^ 2 / (INR tsamples / INR len)) / 2), c')) /\
  ((tsamples <= 5 * len)%nat -> test = do p <- kstest reals srt kst (pvalues_of fft P len w inputs) (Z.of_nat (len * tsamples)) ;; Ok (fst p, c')).
Proof.
  intros fft P Q srt kst g w ntuple tsamples c inputs c' len TR U W EI LI LT test. unfold test, dab_dct. change (dct_len ntuple) with len. rewrite EI. cbn [bind].
  assert (D : dct_uses_fallback len (N.of_nat tsamples) = negb (5 * len <? tsamples)%nat).
  { unfold dct_uses_fallback, mul32. rewrite w32_small by lia. f_equal. apply eq_true_iff_eq. rewrite N.ltb_lt, Nat.ltb_lt. lia. }
  rewrite D. split; intro T.
  - rewrite (proj2 (Nat.ltb_lt _ _) T). cbn [negb]. destruct (C127_primary fft len w inputs TR U LI) as (ps & F & E & _). exists ps. split; [exact F|].
    unfold primary in E. rewrite E. cbn [bind]. unfold chisq_pearson. replace (Z.of_nat len <? 0)%Z with false by lia. unfold chisq_sum. rewrite Nat2Z.id.
    assert (PL : (0 < len)%nat) by (destruct U as [U|(e & U)]; [lia|]; pose proof (Nat.pow_nonzero 2 e); lia). assert (PR : 0 < INR len) by (apply lt_0_INR; lia).
    rewrite (for_rsum len _ (fun i => (tally ps i - INR tsamples / INR len) ^ 2 / (INR tsamples / INR len))).
    + cbn [bind]. rewrite Rplus_0_l. unfold pearson_p. cbn [ndiv nint reals]. rewrite minus_IZR, <- INR_IZR_INZ. reflexivity.
    + intros i s I. rewrite (get_nat (T := R) 0) by (rewrite map_length, seq_length; exact I). cbn [bind]. rewrite (get_nat (T := R) 0) by (rewrite repeat_length; exact I). cbn [bind]. f_equal.
      rewrite map_seq_nth by exact I. unfold delchisq. cbn [nadd nsub nmul ndiv nint reals]. as_reals. f_equal.
      assert (ER : forall x : R, nth i (repeat x len) 0 = x) by (intro x; clear - I; revert i I; induction len as [|n IH]; intros [|i] I; cbn; auto; [lia|lia|apply IH; lia]).
      rewrite ER, <- !INR_IZR_INZ. unfold Rdiv. ring.
  - rewrite (proj2 (Nat.ltb_ge _ _) T). cbn [negb]. pose proof (C127_fallback fft P len w inputs TR U LI) as E. unfold fallback in E. rewrite E. reflexivity.
Qed.
Example C127_ex : peak [1; -3; 2; 3] 1 /\ dct_len 0 = 256%nat /\ usable (dct_len 0) /\
  dct_inputs (fun k => N.of_nat k + 1)%N 2 8 (4 * 1) 0 = Ok ([[1; 2]; [12; 16]; [80; 96]; [193; 2]]%N, 8%nat).
Proof.
  split; [|split; [reflexivity|]; split; [right; exists 8%nat; reflexivity|vm_compute; reflexivity]]. split; [cbn; lia|].
  assert (A : Rabs (-3) = 3) by (rewrite Rabs_left; lra). split; cbn [length nth]; intros k K; do 4 (destruct k as [|k]; [cbn [nth]; rewrite ?A, ?(Rabs_right 1), ?(Rabs_right 2), ?(Rabs_right 3) by lra; try lra; try lia|]); lia.
Qed.

Print Assumptions C125_transform.
Print Assumptions C125_direct.
Print Assumptions C125_inverse.
Print Assumptions C125_inverse_even.
Print Assumptions C125_inverse_odd_refuted.
Print Assumptions C126_law.
Print Assumptions C127_primary.
Print Assumptions C127_fallback.
Print Assumptions C127_test.
