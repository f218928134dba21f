(** Vtest for any arithmetic (after VtestLemmas.v). *)
From Verif Require Import BaseLemmas VtestLawSpec.
Open Scope N_scope.
Section L.
Variable A : arith.
Local Notation num := (num A).
Variable ge : num -> num -> bool.
Definition smalls (cutoff : num) (l : list (num * num)) :=
  filter (fun c => negb (largeA A ge cutoff c)) l.

Lemma dsum_snoc : forall l a, l <> [] -> (dsumA A) (l ++ [a]) = nadd A ((dsumA A) l) a.
Proof.
  intros [|b l] a H; [congruence|]. cbn. rewrite fold_left_app. reflexivity.
Qed.

Lemma bundle_snoc : forall l x y, l <> [] ->
  (bundleA A) (l ++ [(x, y)]) = (nadd A (fst ((bundleA A) l)) x, nadd A (snd ((bundleA A) l)) y).
Proof.
  intros l x y H. unfold bundleA. rewrite !map_app. cbn [map].
  rewrite !dsum_snoc by (destruct l; [congruence|discriminate]). reflexivity.
Qed.

Lemma filter_snoc : forall (X : Type) (f : X -> bool) l a,
  filter f (l ++ [a]) = filter f l ++ (if f a then [a] else []).
Proof. intros X f l a. rewrite filter_app. reflexivity. Qed.

(** index of the first small cell *)
Fixpoint first_small (cutoff : num) (l : list (num * num)) : option nat :=
  match l with
  | [] => None
  | c :: r => if (largeA A ge) cutoff c then option_map S (first_small cutoff r) else Some 0%nat
  end.

Lemma first_small_spec : forall cutoff l,
  match first_small cutoff l with
  | None => smalls cutoff l = []
  | Some t => (t < length l)%nat /\ smalls cutoff l <> [] /\
      exists c, nth_error l t = Some c /\ (largeA A ge) cutoff c = false
  end.
Proof.
  intros cutoff l. induction l as [|c r IH]; cbn [first_small]; [reflexivity|].
  unfold smalls. cbn [filter]. destruct (largeA A ge cutoff c) eqn:L; cbn [negb].
  - destruct (first_small cutoff r) as [t|]; cbn [option_map].
    + destruct IH as (H1 & H2 & H3). cbn [length nth_error]. repeat split; auto. lia.
    + exact IH.
  - cbn [length nth_error]. split; [lia|]. split; [discriminate|]. exists c. auto.
Qed.

Lemma first_small_app : forall cutoff l r,
  first_small cutoff (l ++ r) =
  match first_small cutoff l with
  | Some t => Some t
  | None => option_map (fun t => (length l + t)%nat) (first_small cutoff r)
  end.
Proof.
  intros cutoff l r. induction l as [|c l IH]; cbn [app first_small length].
  - destruct (first_small cutoff r); reflexivity.
  - destruct (largeA A ge cutoff c); [|reflexivity]. rewrite IH.
    destruct (first_small cutoff l); cbn; [reflexivity|].
    destruct (first_small cutoff r); reflexivity.
Qed.

(** the cells after the loop has seen the prefix [done_] *)
Definition bundled (cutoff : num) (seen cells : list (num * num)) :=
  match first_small cutoff seen with
  | None => cells
  | Some t => set_nth cells t ((bundleA A) (smalls cutoff seen))
  end.

Definition vinv (cutoff : num) (preset : bool) (cells seen : list (num * num)) (s : vstateA A) : Prop :=
  va_cells A s = bundled cutoff seen cells /\
  va_chisq A s = (chisq_ofA A) (filter (largeA A ge cutoff) seen) /\
  va_ndof A s = (if preset then 0 else N.of_nat (length (filter (largeA A ge cutoff) seen))) /\
  va_itail A s = first_small cutoff seen.

Lemma chisq_snoc : forall l x y, (chisq_ofA A) (l ++ [(x, y)]) = nadd A ((chisq_ofA A) l) ((delchisqA A) x y).
Proof. intros. unfold chisq_ofA. rewrite fold_left_app. reflexivity. Qed.

Lemma set_nth_twice : forall (X : Type) (l : list X) n a b, set_nth (set_nth l n a) n b = set_nth l n b.
Proof. induction l; intros [|n] x y; cbn; auto. f_equal. apply IHl. Qed.

Lemma set_nth_id : forall (X : Type) (l : list X) n a, nth_error l n = Some a -> set_nth l n a = l.
Proof. induction l; intros [|n] x H; cbn in *; try discriminate; [congruence|]. f_equal. auto. Qed.

Lemma bundled_length : forall cutoff seen cells, length (bundled cutoff seen cells) = length cells.
Proof. intros. unfold bundled. destruct (first_small cutoff seen); [apply set_nth_length|reflexivity]. Qed.

Lemma bundled_beyond : forall cutoff seen rest i, (length seen <= i)%nat ->
  nth_error (bundled cutoff seen (seen ++ rest)) i = nth_error (seen ++ rest) i.
Proof.
  intros cutoff seen rest i H. unfold bundled. pose proof (first_small_spec cutoff seen) as F.
  destruct (first_small cutoff seen) as [t|]; [|reflexivity].
  apply nth_error_set_nth_ne. lia.
Qed.

Lemma aget_error : forall (X : Type) (l : list X) n a, nth_error l n = Some a -> aget l (Z.of_nat n) = Ok a.
Proof.
  intros X l n a H. unfold aget. replace (Z.of_nat n <? 0)%Z with false by lia.
  rewrite Nat2Z.id, H. reflexivity.
Qed.

Lemma v_step_ok : forall cutoff preset seen c rest s,
  N.of_nat (length (seen ++ c :: rest)) < 2 ^ 32 ->
  vinv cutoff preset (seen ++ c :: rest) seen s ->
  exists s', (v_stepA A ge) cutoff preset (length seen) s = Ok s' /\
    vinv cutoff preset (seen ++ c :: rest) (seen ++ [c]) s'.
Proof.
  intros cutoff preset seen [x y] rest s B (H1 & H2 & H3 & H4).
  set (cells := seen ++ (x, y) :: rest) in *.
  assert (Hc : nth_error cells (length seen) = Some (x, y)).
  { unfold cells. rewrite nth_error_app2 by lia. rewrite Nat.sub_diag. reflexivity. }
  assert (Lf : (length (filter (largeA A ge cutoff) seen) <= length seen)%nat).
  { clear. induction seen; cbn; [lia|]. destruct (largeA A ge cutoff a); cbn; lia. }
  assert (Ls : (length seen < length cells)%nat) by (unfold cells; rewrite app_length; cbn; lia).
  unfold v_stepA. rewrite H1.
  rewrite (aget_error _ _ (length seen) (x, y)) by (unfold cells; rewrite bundled_beyond by lia; exact Hc).
  cbn [bind]. change (ge y cutoff) with (largeA A ge cutoff (x, y)).
  pose proof (first_small_spec cutoff seen) as FS.
  destruct (largeA A ge cutoff (x, y)) eqn:L.
  - eexists. split; [reflexivity|]. unfold vinv. cbn [va_cells va_chisq va_ndof va_itail].
    rewrite filter_snoc, L. split; [|split; [|split]].
    + unfold bundled, smalls. rewrite first_small_app, filter_snoc, L. cbn [first_small negb].
      rewrite L. cbn [option_map]. rewrite app_nil_r.
      destruct (first_small cutoff seen); reflexivity.
    + rewrite chisq_snoc, H2. reflexivity.
    + rewrite H3. destruct preset; [reflexivity|]. rewrite app_length. cbn [length].
      unfold add32. rewrite w32_small by lia. lia.
    + rewrite first_small_app, H4. cbn [first_small]. rewrite L. cbn.
      destruct (first_small cutoff seen); reflexivity.
  - rewrite H4. destruct (first_small cutoff seen) as [t|] eqn:T.
    + destruct FS as (F1 & F2 & F3).
      assert (G : nth_error (bundled cutoff seen cells) t = Some ((bundleA A) (smalls cutoff seen))).
      { unfold bundled. rewrite T. apply nth_error_set_nth_eq. lia. }
      rewrite (aget_error _ _ t _ G).
      destruct ((bundleA A) (smalls cutoff seen)) as [xt yt] eqn:Eb. cbn [bind].
      rewrite aset_ok by (rewrite ?bundled_length, ?Nat2Z.id; lia). cbn [bind].
      eexists. split; [reflexivity|]. unfold vinv. cbn [va_cells va_chisq va_ndof va_itail].
      rewrite filter_snoc, L, app_nil_r. split; [|split; [|split]]; auto.
      * unfold bundled. rewrite first_small_app, T. rewrite Nat2Z.id, set_nth_twice.
        f_equal. unfold smalls. rewrite filter_snoc, L. cbn [negb].
        rewrite bundle_snoc by exact F2. fold (smalls cutoff seen). rewrite Eb. reflexivity.
      * rewrite first_small_app, T. symmetry. exact H4 || (rewrite H4; reflexivity) || reflexivity.
    + eexists. split; [reflexivity|]. unfold vinv. cbn [va_cells va_chisq va_ndof va_itail].
      rewrite filter_snoc, L, app_nil_r. split; [|split; [|split]]; auto.
      * unfold bundled. rewrite first_small_app, T. cbn [first_small]. rewrite L. cbn [option_map].
        rewrite Nat.add_0_r. unfold smalls in *. rewrite filter_snoc, L, FS. cbn [negb app].
        unfold bundleA. cbn. symmetry. apply set_nth_id. exact Hc.
      * rewrite first_small_app, T. cbn [first_small]. rewrite L. cbn. f_equal. lia.
Qed.

Lemma v_loop_ok : forall cutoff preset rest seen s,
  N.of_nat (length (seen ++ rest)) < 2 ^ 32 ->
  vinv cutoff preset (seen ++ rest) seen s ->
  exists s', (v_loopA A ge) cutoff preset (length rest) (length seen) s = Ok s' /\
    vinv cutoff preset (seen ++ rest) (seen ++ rest) s'.
Proof.
  intros cutoff preset rest. induction rest as [|c rest IH]; intros seen s B I.
  - exists s. rewrite app_nil_r in *. split; [reflexivity|exact I].
  - destruct (v_step_ok cutoff preset seen c rest s B I) as (s1 & E & I1).
    cbn [length v_loopA]. rewrite E. cbn [bind].
    replace (seen ++ c :: rest) with ((seen ++ [c]) ++ rest) in * by (rewrite <- app_assoc; reflexivity).
    destruct (IH (seen ++ [c]) s1 B I1) as (s2 & E2 & I2).
    rewrite app_length in E2. cbn [length] in E2. rewrite Nat.add_1_r in E2.
    exists s2. auto.
Qed.

Lemma filter_len : forall (X : Type) (f : X -> bool) l, (length (filter f l) <= length l)%nat.
Proof. intros X f l. induction l; cbn; [lia|]. destruct (f a); cbn; lia. Qed.

Lemma Vtest_eval_ok : forall cells cutoff ndof, N.of_nat (length cells) < 2 ^ 31 ->
  (Vtest_evalA A ge) cells cutoff ndof =
  Ok (bundled cutoff cells cells, (chisq_ofA A) (usedA A ge cutoff cells),
      if ndof =? 0 then sub32 (N.of_nat (length (usedA A ge cutoff cells))) 1 else ndof).
Proof.
  intros cells cutoff ndof B. unfold Vtest_evalA.
  set (preset := negb (ndof =? 0)).
  destruct (v_loop_ok cutoff preset cells [] {| va_cells := cells; va_chisq := nint A 0; va_ndof := 0; va_itail := None |})
    as (s & E & H1 & H2 & H3 & H4).
  { cbn. lia. }
  { unfold vinv, bundled. cbn. repeat split; destruct preset; reflexivity. }
  cbn [app length] in *. rewrite E. cbn [bind]. rewrite H4.
  pose proof (first_small_spec cutoff cells) as FS.
  pose proof (filter_len _ (largeA A ge cutoff) cells).
  unfold usedA. fold (smalls cutoff cells).
  destruct (first_small cutoff cells) as [t|] eqn:T.
  - destruct FS as (F1 & F2 & F3).
    assert (G : nth_error (va_cells A s) t = Some ((bundleA A) (smalls cutoff cells))).
    { rewrite H1. unfold bundled. rewrite T. apply nth_error_set_nth_eq. lia. }
    rewrite (aget_error _ _ t _ G).
    replace (length (smalls cutoff cells) =? 0)%nat with false
      by (destruct (smalls cutoff cells); [congruence|reflexivity]).
    destruct ((bundleA A) (smalls cutoff cells)) as [xt yt] eqn:Eb. cbn [bind negb andb].
    change (ge yt cutoff) with (largeA A ge cutoff (xt, yt)).
    destruct (largeA A ge cutoff (xt, yt)).
    + cbn [bind va_cells va_chisq va_ndof]. rewrite chisq_snoc, app_length, H1, H2, H3. cbn [length].
      unfold preset. destruct (ndof =? 0); cbn [negb]; [|reflexivity].
      unfold add32. rewrite w32_small by lia. do 2 f_equal. f_equal. lia.
    + cbn [bind va_cells va_chisq va_ndof]. rewrite app_nil_r, H1, H2, H3.
      unfold preset. destruct (ndof =? 0); reflexivity.
  - rewrite FS. cbn [length bind negb andb]. change (0 =? 0)%nat with true. cbn [negb andb].
    rewrite app_nil_r, H1, H2, H3. unfold preset. destruct (ndof =? 0); reflexivity.
Qed.

End L.
