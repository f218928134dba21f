(** The statistic of the Kolmogorov-Smirnov test with C doubles. *)
From Coq Require Import ZArith Reals Lra Lia List Permutation Sorted Bool.
From Flocq Require Import Core IEEE754.BinarySingleNaN.
From Verif Require Import KsModel KsSpec DoubleLemmas DoubleLemmas2 DoubleLemmas3 SphereLemmas SphereLemmas2.
Import ListNotations.
Open Scope R_scope.

Lemma sorted_unique : forall l l', StronglySorted Rle l -> StronglySorted Rle l' -> Permutation l l' -> l = l'.
Proof.
  induction l as [|a l IH]; intros l' S S' P.
  - symmetry. now apply Permutation_nil.
  - destruct l' as [|b l']; [now apply Permutation_sym, Permutation_nil in P|].
    inversion S as [|? ? Sl Fa]; subst. inversion S' as [|? ? Sl' Fb]; subst.
    assert (a = b).
    { apply Rle_antisym.
      - assert (I : In b (a :: l)) by (apply Permutation_in with (1 := Permutation_sym P); now left).
        destruct I as [->|I]; [lra|]. rewrite Forall_forall in Fa. auto.
      - assert (I : In a (b :: l')) by (apply Permutation_in with (1 := P); now left).
        destruct I as [->|I]; [lra|]. rewrite Forall_forall in Fb. auto. }
    subst b. f_equal. apply IH; auto. now apply Permutation_cons_inv in P.
Qed.
Lemma sorted_map l : StronglySorted (fun a b : double => B2R a <= B2R b) l -> StronglySorted Rle (map (@B2R 53 1024) l).
Proof.
  induction 1 as [|a l S IH F]; cbn [map]; constructor; auto.
  apply Forall_forall. intros x I. apply in_map_iff in I. destruct I as (b & <- & I). rewrite Forall_forall in F. auto.
Qed.
Lemma sorts_same srt srt' l l' : sorts srt -> sorts srt' -> Forall (fun p => is_finite p = true) l -> Permutation l l' ->
  map (@B2R 53 1024) (srt l) = map (@B2R 53 1024) (srt' l').
Proof.
  intros H H' F P. destruct (H l F) as (P1 & S1).
  assert (F' : Forall (fun p => is_finite p = true) l') by (eapply Permutation_Forall; eauto).
  destruct (H' l' F') as (P2 & S2).
  apply sorted_unique; auto using sorted_map. apply Permutation_map. transitivity l; [symmetry; exact P1|]. transitivity l'; auto.
Qed.

(** the expected position i/(n+1) *)
Definition pos (i count : Z) : double := ddiv (d_of_Z i) (dadd (d_of_Z count) (d_of_Z 1)).
Lemma pos_val i count : (1 <= i <= count)%Z -> (count <= 2147483647)%Z ->
  is_finite (pos i count) = true /\ B2R (pos i count) = rnd (IZR i / (IZR count + 1)).
Proof.
  intros I C. unfold pos. rewrite dadd_int by lia.
  destruct (d_of_Z_val i) as (F & V & _); [lia|]. destruct (d_of_Z_val (count + 1)) as (F' & V' & _); [lia|].
  assert (1 <= IZR i <= IZR count) by (split; apply IZR_le; lia). rewrite plus_IZR in V'.
  destruct (ddiv_mod (d_of_Z i) (d_of_Z (count + 1)) F) as (F2 & V2).
  - rewrite V'. lra.
  - apply moderate_le. rewrite V, V'. split; [apply Rle_trans with 0; [lra|]; apply Rlt_le, Rdiv_lt_0_compat; lra|].
    apply Rle_trans with 1; [|lra]. apply Rmult_le_reg_r with (IZR count + 1); [lra|]. field_simplify; lra.
  - split; [exact F2|]. rewrite V2, V, V'. reflexivity.
Qed.

Lemma rnd_err x : Rabs x <= 1 -> Rabs (rnd x - x) <= / 9007199254740992.
Proof.
  intro H. unfold rnd.
  pose proof (@error_le_half_ulp radix2 (SpecFloat.fexp 53 1024) (fexp_correct 53 1024 eq_refl) (fun z => negb (Z.even z)) x) as E.
  assert (U : ulp radix2 (SpecFloat.fexp 53 1024) x <= ulp radix2 (SpecFloat.fexp 53 1024) 1).
  { apply ulp_le; [apply fexp_correct; reflexivity|apply fexp_monotone|]. rewrite Rabs_R1. exact H. }
  assert (U1 : ulp radix2 (SpecFloat.fexp 53 1024) 1 = / 4503599627370496).
  { rewrite ulp_neq_0 by lra. unfold cexp. change 1 with (bpow radix2 0) at 1. rewrite mag_bpow. reflexivity. }
  change (round radix2 (SpecFloat.fexp 53 1024) (Znearest (fun z => negb (Z.even z))) x) with
    (round radix2 (SpecFloat.fexp 53 1024) (round_mode mode_NE) x) in E. rewrite U1 in U. lra.
Qed.
Lemma rnd_one : rnd 1 = 1.
Proof. change 1 with (IZR 1). apply rnd_int. lia. Qed.
Lemma ratio_range i count : (1 <= i <= count)%Z -> 0 < IZR i / (IZR count + 1) < 1.
Proof.
  intro I. assert (1 <= IZR i <= IZR count) by (split; apply IZR_le; lia). split.
  - apply Rdiv_lt_0_compat; lra.
  - apply Rmult_lt_reg_r with (IZR count + 1); [lra|]. field_simplify; lra.
Qed.
Lemma pos_range i count : (1 <= i <= count)%Z -> (count <= 2147483647)%Z ->
  0 < B2R (pos i count) <= 1 /\ Rabs (B2R (pos i count) - IZR i / (IZR count + 1)) <= / 9007199254740992.
Proof.
  intros I C. destruct (pos_val i count I C) as (_ & V). rewrite V. pose proof (ratio_range i count I) as R.
  assert (B : / 4294967296 <= IZR i / (IZR count + 1)).
  { assert (1 <= IZR i /\ 0 <= IZR count <= 2147483647) as (A1 & A2) by (repeat split; apply IZR_le; lia).
    apply Rmult_le_reg_r with (IZR count + 1); [lra|]. replace (IZR i / (IZR count + 1) * (IZR count + 1)) with (IZR i) by (field; lra).
    lra. }
  split; [split|].
  - apply Rlt_le_trans with (bpow radix2 (-32)); [apply bpow_gt_0|]. rewrite <- (rnd_bpow (-32)) by lia. apply rnd_le. exact B.
  - apply Rle_trans with (rnd 1); [apply rnd_le; lra|rewrite rnd_one; lra].
  - apply rnd_err. rewrite Rabs_pos_eq; lra.
Qed.
(** the distance of a p-value from its expected position *)
Definition off (p : double) (i count : Z) : double := dabs (dsub p (pos i count)).
Lemma off_val p i count : (1 <= i <= count)%Z -> (count <= 2147483647)%Z -> pvalue_ok p ->
  is_finite (off p i count) = true /\ 0 <= B2R (off p i count) <= 1 /\
  Rabs (B2R (off p i count) - Rabs (B2R p - IZR i / (IZR count + 1))) <= / 4503599627370496.
Proof.
  intros I C (F & R). destruct (pos_val i count I C) as (Fy & _). destruct (pos_range i count I C) as (Ry & E).
  destruct (dsub_mod p (pos i count) F Fy) as (Fs & Vs); [apply moderate_le; lra|].
  unfold off, dabs. rewrite is_finite_Babs, B2R_Babs, Vs. split; [exact Fs|].
  assert (A : Rabs (B2R p - B2R (pos i count)) <= 1) by (apply Rabs_le; lra).
  pose proof (rnd_err _ A) as E2. rewrite rnd_abs. split.
  - split; [rewrite <- rnd_zero|rewrite <- rnd_one]; apply rnd_le; [apply Rabs_pos|exact A].
  - rewrite <- rnd_abs. set (a := rnd (B2R p - B2R (pos i count))) in *. set (y := B2R (pos i count)) in *.
    set (z := IZR i / (IZR count + 1)) in *. clearbody a y z. clear - E E2.
    eapply Rle_trans; [apply Rabs_triang_inv2|]. replace (a - (B2R p - z)) with ((a - (B2R p - y)) + - (y - z)) by ring.
    eapply Rle_trans; [apply Rabs_triang|]. rewrite Rabs_Ropp. lra.
Qed.
Lemma off_same p q i count : (1 <= i <= count)%Z -> (count <= 2147483647)%Z -> is_finite p = true -> is_finite q = true ->
  B2R p = B2R q -> off p i count = off q i count.
Proof.
  intros I C Fp Fq E. destruct (pos_val i count I C) as (Fy & _). destruct (pos_range i count I C) as ((Ry & _) & _).
  unfold off. f_equal. destruct (pos i count) as [s|s| |sy my ey By]; try discriminate; [cbn in Ry; lra|].
  assert (Z : forall x : double, is_finite x = true -> B2R x = 0 -> dsub x (B754_finite sy my ey By) = dsub dzero (B754_finite sy my ey By)).
  { intros x Fx Ex. destruct x as [s|s| |s m e B]; try discriminate; [destruct s; reflexivity|].
    exfalso. unfold B2R in Ex. rewrite F2R_cond_Zopp in Ex. pose proof (F2R_gt_0 radix2 (Float radix2 (Z.pos m) e) eq_refl).
    destruct s; cbn [cond_Ropp] in Ex; lra. }
  destruct (Req_dec (B2R p) 0) as [H|H].
  - rewrite (Z p), (Z q); auto; congruence.
  - f_equal. apply B2R_inj; auto.
    + destruct p; try discriminate; auto.
    + rewrite E in H. destruct q; try discriminate; auto.
Qed.

Section Dmax.
Variables (dpow : double -> Z -> double) (dexp : double -> double).
Notation D := (doubles dpow dexp).
Lemma dmax_step p pv i count m : dmax_loop D i count (p :: pv) m =
  dmax_loop D (i + 1) count pv (if dgt (off p i count) m then off p i count else m).
Proof. reflexivity. Qed.
Lemma dmax_same : forall pv qv i count m, (1 <= i)%Z -> (i + Z.of_nat (length pv) <= count + 1)%Z -> (count <= 2147483647)%Z ->
  Forall (fun p => is_finite p = true) pv -> Forall (fun p => is_finite p = true) qv ->
  map (@B2R 53 1024) pv = map (@B2R 53 1024) qv -> dmax_loop D i count pv m = dmax_loop D i count qv m.
Proof.
  induction pv as [|p pv IH]; intros [|q qv] i count m I L C Fp Fq E; try discriminate; [reflexivity|].
  cbn [map] in E. injection E as E Es. inversion Fp; subst. inversion Fq; subst. cbn [length] in L.
  rewrite !dmax_step, (off_same p q) by (auto; lia). apply IH; auto; lia.
Qed.
Lemma dmax_ok : forall pv i count m r, (1 <= i)%Z -> (i + Z.of_nat (length pv) <= count + 1)%Z -> (count <= 2147483647)%Z ->
  Forall pvalue_ok pv -> is_finite m = true -> 0 <= B2R m <= 1 -> Rabs (B2R m - r) <= / 4503599627370496 ->
  let d := dmax_loop D i count pv m in
  is_finite d = true /\ 0 <= B2R d <= 1 /\
  Rabs (B2R d - largest_from (IZR i) (IZR count) (map (@B2R 53 1024) pv) r) <= / 4503599627370496.
Proof.
  induction pv as [|p pv IH]; intros i count m r I L C F Fm Rm E; cbn zeta; [cbn; auto|].
  rewrite dmax_step. cbn [map largest_from]. inversion F; subst. cbn [length] in L.
  destruct (off_val p i count) as (Fo & Ro & Eo); auto; [lia|].
  replace (IZR i + 1) with (IZR (i + 1)) by apply plus_IZR.
  unfold dgt. change (Bltb m (off p i count)) with (dlt m (off p i count)).
  destruct (dlt m (off p i count)) eqn:G.
  - apply lt_true in G; auto. apply IH; auto; try lia.
    set (x := B2R (off p i count)) in *. set (y := Rabs (B2R p - _)) in Eo |- *. clearbody x y. clear - E Eo G.
    apply Rabs_le_inv in E. apply Rabs_le_inv in Eo. apply Rabs_le. unfold Rmax. destruct (Rle_dec r y); lra.
  - apply lt_false in G; auto. apply IH; auto; try lia.
    set (x := B2R (off p i count)) in *. set (y := Rabs (B2R p - _)) in Eo |- *. clearbody x y. clear - E Eo G.
    apply Rabs_le_inv in E. apply Rabs_le_inv in Eo. apply Rabs_le. unfold Rmax. destruct (Rle_dec r y); lra.
Qed.
End Dmax.
