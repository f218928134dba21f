From Verif Require Import BaseLemmas ReportModel ReportSpec DoubleLemmas2.
Open Scope N_scope.

Definition smalls (cutoff : double) (l : list (double * double)) :=
  filter (fun c => negb (large cutoff c)) l.

Lemma dsum_snoc : forall l a, l <> [] -> dsum (l ++ [a]) = dadd (dsum l) a.
Proof.
  intros [|b l] a H; [congruence|]. cbn. rewrite fold_left_app. reflexivity.
Qed.

Lemma bundle_snoc : forall l x y, l <> [] ->
  bundle (l ++ [(x, y)]) = (dadd (fst (bundle l)) x, dadd (snd (bundle l)) y).
Proof.
  intros l x y H. unfold bundle. rewrite !map_app. cbn [map].
  rewrite !dsum_snoc by (destruct l; [congruence|discriminate]). reflexivity.
Qed.

Lemma filter_snoc : forall A (f : A -> bool) l a,
  filter f (l ++ [a]) = filter f l ++ (if f a then [a] else []).
Proof. intros A f l a. rewrite filter_app. reflexivity. Qed.

(** index of the first small cell *)
Fixpoint first_small (cutoff : double) (l : list (double * double)) : option nat :=
  match l with
  | [] => None
  | c :: r => if large cutoff c then option_map S (first_small cutoff r) else Some 0%nat
  end.

Lemma first_small_spec : forall cutoff l,
  match first_small cutoff l with
  | None => smalls cutoff l = []
  | Some t => (t < length l)%nat /\ smalls cutoff l <> [] /\
      exists c, nth_error l t = Some c /\ large cutoff c = false
  end.
Proof.
  intros cutoff l. induction l as [|c r IH]; cbn [first_small]; [reflexivity|].
  unfold smalls. cbn [filter]. destruct (large cutoff c) eqn:L; cbn [negb].
  - destruct (first_small cutoff r) as [t|]; cbn [option_map].
    + destruct IH as (H1 & H2 & H3). cbn [length nth_error]. repeat split; auto. lia.
    + exact IH.
  - cbn [length nth_error]. split; [lia|]. split; [discriminate|]. exists c. auto.
Qed.

Lemma first_small_app : forall cutoff l r,
  first_small cutoff (l ++ r) =
  match first_small cutoff l with
  | Some t => Some t
  | None => option_map (fun t => (length l + t)%nat) (first_small cutoff r)
  end.
Proof.
  intros cutoff l r. induction l as [|c l IH]; cbn [app first_small length].
  - destruct (first_small cutoff r); reflexivity.
  - destruct (large cutoff c); [|reflexivity]. rewrite IH.
    destruct (first_small cutoff l); cbn; [reflexivity|].
    destruct (first_small cutoff r); reflexivity.
Qed.

(** the cells after the loop has seen the prefix [done_] *)
Definition bundled (cutoff : double) (seen cells : list (double * double)) :=
  match first_small cutoff seen with
  | None => cells
  | Some t => set_nth cells t (bundle (smalls cutoff seen))
  end.

Definition vinv (cutoff : double) (preset : bool) (cells seen : list (double * double)) (s : vstate) : Prop :=
  v_cells s = bundled cutoff seen cells /\
  v_chisq s = chisq_of (filter (large cutoff) seen) /\
  v_ndof s = (if preset then 0 else N.of_nat (length (filter (large cutoff) seen))) /\
  v_itail s = first_small cutoff seen.

Lemma chisq_snoc : forall l x y, chisq_of (l ++ [(x, y)]) = dadd (chisq_of l) (delchisq x y).
Proof. intros. unfold chisq_of. rewrite fold_left_app. reflexivity. Qed.

Lemma set_nth_twice : forall A (l : list A) n a b, set_nth (set_nth l n a) n b = set_nth l n b.
Proof. induction l; intros [|n] x y; cbn; auto. f_equal. apply IHl. Qed.

Lemma set_nth_id : forall A (l : list A) n a, nth_error l n = Some a -> set_nth l n a = l.
Proof. induction l; intros [|n] x H; cbn in *; try discriminate; [congruence|]. f_equal. auto. Qed.

Lemma bundled_length : forall cutoff seen cells, length (bundled cutoff seen cells) = length cells.
Proof. intros. unfold bundled. destruct (first_small cutoff seen); [apply set_nth_length|reflexivity]. Qed.

Lemma bundled_beyond : forall cutoff seen rest i, (length seen <= i)%nat ->
  nth_error (bundled cutoff seen (seen ++ rest)) i = nth_error (seen ++ rest) i.
Proof.
  intros cutoff seen rest i H. unfold bundled. pose proof (first_small_spec cutoff seen) as F.
  destruct (first_small cutoff seen) as [t|]; [|reflexivity].
  apply nth_error_set_nth_ne. lia.
Qed.

Lemma aget_error : forall A (l : list A) n a, nth_error l n = Some a -> aget l (Z.of_nat n) = Ok a.
Proof.
  intros A l n a H. unfold aget. replace (Z.of_nat n <? 0)%Z with false by lia.
  rewrite Nat2Z.id, H. reflexivity.
Qed.

Lemma v_step_ok : forall cutoff preset seen c rest s,
  N.of_nat (length (seen ++ c :: rest)) < 2 ^ 32 ->
  vinv cutoff preset (seen ++ c :: rest) seen s ->
  exists s', v_step cutoff preset (length seen) s = Ok s' /\
    vinv cutoff preset (seen ++ c :: rest) (seen ++ [c]) s'.
Proof.
  intros cutoff preset seen [x y] rest s B (H1 & H2 & H3 & H4).
  set (cells := seen ++ (x, y) :: rest) in *.
  assert (Hc : nth_error cells (length seen) = Some (x, y)).
  { unfold cells. rewrite nth_error_app2 by lia. rewrite Nat.sub_diag. reflexivity. }
  assert (Lf : (length (filter (large cutoff) seen) <= length seen)%nat).
  { clear. induction seen; cbn; [lia|]. destruct (large cutoff a); cbn; lia. }
  assert (Ls : (length seen < length cells)%nat) by (unfold cells; rewrite app_length; cbn; lia).
  unfold v_step. rewrite H1.
  rewrite (aget_error _ _ (length seen) (x, y)) by (unfold cells; rewrite bundled_beyond by lia; exact Hc).
  cbn [bind]. change (dge y cutoff) with (large cutoff (x, y)).
  pose proof (first_small_spec cutoff seen) as FS.
  destruct (large cutoff (x, y)) eqn:L.
  - eexists. split; [reflexivity|]. unfold vinv. cbn [v_cells v_chisq v_ndof v_itail].
    rewrite filter_snoc, L. split; [|split; [|split]].
    + unfold bundled, smalls. rewrite first_small_app, filter_snoc, L. cbn [first_small negb].
      rewrite L. cbn [option_map]. rewrite app_nil_r.
      destruct (first_small cutoff seen); reflexivity.
    + rewrite chisq_snoc, H2. reflexivity.
    + rewrite H3. destruct preset; [reflexivity|]. rewrite app_length. cbn [length].
      unfold add32. rewrite w32_small by lia. lia.
    + rewrite first_small_app, H4. cbn [first_small]. rewrite L. cbn.
      destruct (first_small cutoff seen); reflexivity.
  - rewrite H4. destruct (first_small cutoff seen) as [t|] eqn:T.
    + destruct FS as (F1 & F2 & F3).
      assert (G : nth_error (bundled cutoff seen cells) t = Some (bundle (smalls cutoff seen))).
      { unfold bundled. rewrite T. apply nth_error_set_nth_eq. lia. }
      rewrite (aget_error _ _ t _ G).
      destruct (bundle (smalls cutoff seen)) as [xt yt] eqn:Eb. cbn [bind].
      rewrite aset_ok by (rewrite ?bundled_length, ?Nat2Z.id; lia). cbn [bind].
      eexists. split; [reflexivity|]. unfold vinv. cbn [v_cells v_chisq v_ndof v_itail].
      rewrite filter_snoc, L, app_nil_r. split; [|split; [|split]]; auto.
      * unfold bundled. rewrite first_small_app, T. rewrite Nat2Z.id, set_nth_twice.
        f_equal. unfold smalls. rewrite filter_snoc, L. cbn [negb].
        rewrite bundle_snoc by exact F2. fold (smalls cutoff seen). rewrite Eb. reflexivity.
      * rewrite first_small_app, T. symmetry. exact H4 || (rewrite H4; reflexivity) || reflexivity.
    + eexists. split; [reflexivity|]. unfold vinv. cbn [v_cells v_chisq v_ndof v_itail].
      rewrite filter_snoc, L, app_nil_r. split; [|split; [|split]]; auto.
      * unfold bundled. rewrite first_small_app, T. cbn [first_small]. rewrite L. cbn [option_map].
        rewrite Nat.add_0_r. unfold smalls in *. rewrite filter_snoc, L, FS. cbn [negb app].
        unfold bundle. cbn. symmetry. apply set_nth_id. exact Hc.
      * rewrite first_small_app, T. cbn [first_small]. rewrite L. cbn. f_equal. lia.
Qed.

Lemma v_loop_ok : forall cutoff preset rest seen s,
  N.of_nat (length (seen ++ rest)) < 2 ^ 32 ->
  vinv cutoff preset (seen ++ rest) seen s ->
  exists s', v_loop cutoff preset (length rest) (length seen) s = Ok s' /\
    vinv cutoff preset (seen ++ rest) (seen ++ rest) s'.
Proof.
  intros cutoff preset rest. induction rest as [|c rest IH]; intros seen s B I.
  - exists s. rewrite app_nil_r in *. split; [reflexivity|exact I].
  - destruct (v_step_ok cutoff preset seen c rest s B I) as (s1 & E & I1).
    cbn [length v_loop]. rewrite E. cbn [bind].
    replace (seen ++ c :: rest) with ((seen ++ [c]) ++ rest) in * by (rewrite <- app_assoc; reflexivity).
    destruct (IH (seen ++ [c]) s1 B I1) as (s2 & E2 & I2).
    rewrite app_length in E2. cbn [length] in E2. rewrite Nat.add_1_r in E2.
    exists s2. auto.
Qed.

Lemma filter_len : forall A (f : A -> bool) l, (length (filter f l) <= length l)%nat.
Proof. intros A f l. induction l; cbn; [lia|]. destruct (f a); cbn; lia. Qed.

Lemma Vtest_eval_ok : forall cells cutoff ndof, N.of_nat (length cells) < 2 ^ 31 ->
  Vtest_eval cells cutoff ndof =
  Ok (bundled cutoff cells cells, chisq_of (used cutoff cells),
      if ndof =? 0 then sub32 (N.of_nat (length (used cutoff cells))) 1 else ndof).
Proof.
  intros cells cutoff ndof B. unfold Vtest_eval.
  set (preset := negb (ndof =? 0)).
  destruct (v_loop_ok cutoff preset cells [] {| v_cells := cells; v_chisq := dzero; v_ndof := 0; v_itail := None |})
    as (s & E & H1 & H2 & H3 & H4).
  { cbn. lia. }
  { unfold vinv, bundled. cbn. repeat split; destruct preset; reflexivity. }
  cbn [app length] in *. rewrite E. cbn [bind]. rewrite H4.
  pose proof (first_small_spec cutoff cells) as FS.
  pose proof (filter_len _ (large cutoff) cells).
  unfold used. fold (smalls cutoff cells).
  destruct (first_small cutoff cells) as [t|] eqn:T.
  - destruct FS as (F1 & F2 & F3).
    assert (G : nth_error (v_cells s) t = Some (bundle (smalls cutoff cells))).
    { rewrite H1. unfold bundled. rewrite T. apply nth_error_set_nth_eq. lia. }
    rewrite (aget_error _ _ t _ G).
    replace (length (smalls cutoff cells) =? 0)%nat with false
      by (destruct (smalls cutoff cells); [congruence|reflexivity]).
    destruct (bundle (smalls cutoff cells)) as [xt yt] eqn:Eb. cbn [bind negb andb].
    change (dge yt cutoff) with (large cutoff (xt, yt)).
    destruct (large cutoff (xt, yt)).
    + cbn [bind v_cells v_chisq v_ndof]. rewrite chisq_snoc, app_length, H1, H2, H3. cbn [length].
      unfold preset. destruct (ndof =? 0); cbn [negb]; [|reflexivity].
      unfold add32. rewrite w32_small by lia. do 2 f_equal. f_equal. lia.
    + cbn [bind v_cells v_chisq v_ndof]. rewrite app_nil_r, H1, H2, H3.
      unfold preset. destruct (ndof =? 0); reflexivity.
  - rewrite FS. cbn [length bind negb andb]. change (0 =? 0)%nat with true. cbn [negb andb].
    rewrite app_nil_r, H1, H2, H3. unfold preset. destruct (ndof =? 0); reflexivity.
Qed.

(** Observed counts are conserved exactly. *)
Lemma dsum_ints : forall ns a, (0 <= a)%Z -> (forall n, In n ns -> 0 <= n)%Z -> (a + zsum ns <= 2 ^ 53)%Z ->
  fold_left dadd (map d_of_Z ns) (d_of_Z a) = d_of_Z (a + zsum ns).
Proof.
  induction ns as [|n ns IH]; intros a Ha Hn B; cbn [map fold_left zsum].
  - f_equal. lia.
  - cbn [zsum] in B. assert (0 <= n)%Z by (apply Hn; left; reflexivity).
    assert (0 <= zsum ns)%Z.
    { assert (forall n, In n ns -> 0 <= n)%Z by (intros; apply Hn; right; auto).
      clear - H0. induction ns; cbn; [lia|].
      assert (0 <= a)%Z by (apply H0; left; auto). assert (0 <= zsum ns)%Z by (apply IHns; intros; apply H0; right; auto). lia. }
    rewrite dadd_int by lia. rewrite IH; [f_equal; lia|lia| |lia].
    intros m I. apply Hn. right. exact I.
Qed.

Lemma zsum_nonneg : forall l, (forall n, In n l -> 0 <= n)%Z -> (0 <= zsum l)%Z.
Proof.
  induction l; intro H; cbn; [lia|].
  assert (0 <= a)%Z by (apply H; left; auto). assert (0 <= zsum l)%Z by (apply IHl; intros; apply H; right; auto). lia.
Qed.

Lemma zsum_app : forall a b, zsum (a ++ b) = (zsum a + zsum b)%Z.
Proof. induction a; intro b; cbn; [reflexivity|]. rewrite IHa. lia. Qed.

(** split of the counts along with the cells *)
Lemma split_ints : forall (f : double * double -> bool) cells ns,
  map fst cells = map d_of_Z ns -> (forall n, In n ns -> 0 <= n)%Z ->
  exists n1 n2, map fst (filter f cells) = map d_of_Z n1 /\
    map fst (filter (fun c => negb (f c)) cells) = map d_of_Z n2 /\
    (zsum n1 + zsum n2 = zsum ns)%Z /\ (forall n, In n n1 -> 0 <= n)%Z /\ (forall n, In n n2 -> 0 <= n)%Z.
Proof.
  intros f cells. induction cells as [|c cells IH]; intros ns E P.
  - destruct ns; [|discriminate]. exists [], []. repeat split; auto.
  - destruct ns as [|n ns]; [discriminate|]. cbn in E. inversion E as [[E1 E2]].
    destruct (IH ns E2) as (n1 & n2 & A & B & C & D1 & D2).
    { intros m I. apply P. right. exact I. }
    assert (Pn : (0 <= n)%Z) by (apply P; left; reflexivity).
    cbn [filter]. destruct (f c); cbn [negb].
    + exists (n :: n1), n2. cbn. rewrite A, E1. repeat split; auto; [lia|].
      intros m [<-|I]; auto.
    + exists n1, (n :: n2). cbn. rewrite B, E1. repeat split; auto; [lia|].
      intros m [<-|I]; auto.
Qed.

Lemma counts_conserved : forall cutoff cells ns,
  map fst cells = map d_of_Z ns -> (forall n, In n ns -> 0 <= n)%Z -> (zsum ns <= 2 ^ 53)%Z ->
  (smalls cutoff cells = [] \/ large cutoff (bundle (smalls cutoff cells)) = true) ->
  exists ms, map fst (used cutoff cells) = map d_of_Z ms /\ zsum ms = zsum ns.
Proof.
  intros cutoff cells ns E P B T.
  destruct (split_ints (large cutoff) cells ns E P) as (n1 & n2 & A1 & A2 & C & D1 & D2).
  unfold used. fold (smalls cutoff cells). fold (smalls cutoff cells) in A2.
  destruct T as [T|T].
  - rewrite T in *. cbn [length]. change (0 =? 0)%nat with true. cbn [negb andb].
    destruct n2; [|discriminate]. exists n1. rewrite app_nil_r. cbn in C. split; [exact A1|lia].
  - rewrite T. destruct n2 as [|n n2].
    + assert (smalls cutoff cells = []) as X by (destruct (smalls cutoff cells); [reflexivity|discriminate]).
      rewrite X. cbn [length]. change (0 =? 0)%nat with true. cbn [negb andb].
      exists n1. rewrite app_nil_r. cbn in C. split; [exact A1|lia].
    + replace (length (smalls cutoff cells) =? 0)%nat with false
        by (destruct (smalls cutoff cells); [discriminate|reflexivity]).
      cbn [negb andb]. exists (n1 ++ [zsum (n :: n2)]).
      rewrite !map_app, A1, zsum_app. cbn [map zsum]. split; [|cbn in C; lia].
      f_equal. f_equal. unfold bundle. cbn [fst]. rewrite A2. unfold dsum. cbn [map].
      pose proof (zsum_nonneg _ D1). cbn [zsum] in C.
      rewrite dsum_ints; [reflexivity| | |lia].
      * apply D2. left. reflexivity.
      * intros m I. apply D2. right. exact I.
Qed.
